(** Properties of the incremental request parser: C06 - C09.
    The vocabulary is in [ParserSpec], [RequestSpec] and [WireSpec]. *)
From Coq Require Import String.
From Verif Require Import Bytes BytesFacts Value CommandId Request WireSpec
  RequestSpec ReqContext ParserSpec ReqContextFacts ReqParserProps.
From stdpp Require Import gmap list.
From Coq Require Import NArith ZArith.

(** C06 fails for every request: feeding the bytes of a built request to a fresh
    parser gives a request without any argument (when there were some), the error
    [KeyTypeInvalid] (when there is a key type) or no request at all (when there
    are no arguments). *)
Theorem C06_refuted :
  forall e c kt l b,
  is_simple c = false -> (lenN l <= 255)%N ->
  Forall (fun a => a <> [] /\ lenN a < u32_mod)%N l ->
  builder_chain e (builder_new_kt c kt) (map CallBytes l) = Ok (b, None) ->
  match snd (req_feed req_ctx_new (r_buf (into_request b))) with
  | FRequest r => kt = None /\ l <> [] /\ r_command r = c /\ r_key_type r = None
                  /\ carries r []
  | FError err => is_Some kt /\ err = PEKeyTypeInvalid
  | FNeedMore => kt = None /\ l = []
  | FPanic | FFuel => False
  end.
Proof. exact c06_false. Qed.
Print Assumptions C06_refuted.

(** C06, proved part: the command of an untyped request with at least one
    argument is recognised, whatever follows it, and the parser is ready for the
    next request.  Missing: the arguments and the key type. *)
Theorem C06_partial :
  forall e c l b s,
  is_simple c = false -> l <> [] -> (lenN l <= 255)%N ->
  Forall (fun a => a <> [] /\ lenN a < u32_mod)%N l ->
  builder_chain e (builder_new c) (map CallBytes l) = Ok (b, None) ->
  exists r, req_feed req_ctx_new (r_buf (into_request b) ++ s) = (req_ctx_new, FRequest r)
            /\ r_command r = c /\ r_key_type r = None.
Proof. exact c06_command. Qed.
Print Assumptions C06_partial.

Example C06_nonvacuous :
  exists b, builder_chain (env_std false) (builder_new CGet) (map CallBytes [lit "foo"])
            = Ok (b, None)
  /\ exists r, req_feed req_ctx_new (r_buf (into_request b)) = (req_ctx_new, FRequest r)
               /\ r_command r = CGet.
Proof.
  eexists. split; [vm_compute; reflexivity|]. eexists.
  split; vm_compute; reflexivity.
Qed.

(** C07: whatever is fed to one parser, in whatever sequence of buffers, no
    returned request has an argument, a key or a key type. *)
Theorem C07_parsed_requests_are_bare :
  forall bufs,
  Forall (fun res => match res with
    | FRequest r =>
      arg_count r = 0%N /\ (forall i, arg r i = None) /\
      (forall lo hi, args r lo hi = None) /\ key r = None /\ r_key_type r = None
    | _ => True end) (snd (req_feeds req_ctx_new bufs)).
Proof. exact c07_no_arguments. Qed.
Print Assumptions C07_parsed_requests_are_bare.

(** A first byte of 128 or more is rejected. *)
Theorem C07_high_first_byte_rejected :
  forall byte rest, (128 <= b2n byte)%N ->
  req_feed req_ctx_new (byte :: rest) = (req_ctx_new, FError PEKeyTypeInvalid).
Proof. exact init_high. Qed.
Print Assumptions C07_high_first_byte_rejected.

(** After a request or an error the parser is as new, so the above applies to
    the next message too. *)
Theorem C07_parser_restarts :
  forall x buf, req_reachable x ->
  match req_feed x buf with
  | (x', FRequest _) | (x', FError _) => x' = req_ctx_new
  | _ => True
  end.
Proof. exact feed_restarts. Qed.
Print Assumptions C07_parser_restarts.

Example C07_nonvacuous :
  exists r, snd (req_feeds req_ctx_new
    [[n2b 0]; [n2b 0; n2b 1; n2b 0; n2b 0; n2b 0; n2b 1; n2b 97]])
  = [FNeedMore; FRequest r].
Proof. eexists. vm_compute. reflexivity. Qed.

(** C08: feeding growing prefixes to one parser, the first conclusive answer is
    the one a fresh parser gives for that prefix ... *)
Theorem C08_chunking_first_answer :
  forall bufs b r,
  growing bufs -> first_answer req_ctx_new bufs = Some (b, r) ->
  r = snd (req_feed req_ctx_new b).
Proof. exact c08_chunks. Qed.
Print Assumptions C08_chunking_first_answer.

(** ... and the one it gives for any longer input; ... *)
Theorem C08_chunking_whole :
  forall bufs b r s,
  growing bufs -> first_answer req_ctx_new bufs = Some (b, r) ->
  same_answer r (snd (req_feed req_ctx_new (b ++ s))).
Proof. exact c08_whole. Qed.
Print Assumptions C08_chunking_whole.

(** ... if there was none, the whole input is inconclusive. *)
Theorem C08_chunking_none :
  forall bufs b,
  growing bufs -> last bufs = Some b -> first_answer req_ctx_new bufs = None ->
  snd (req_feed req_ctx_new b) = FNeedMore.
Proof. exact c08_none. Qed.
Print Assumptions C08_chunking_none.

(** After an inconclusive feed, feeding a longer buffer is as if only that had
    been fed; this holds in every parser state. *)
Theorem C08_resume :
  forall x b s x1,
  req_feed x b = (x1, FNeedMore) -> req_feed x1 (b ++ s) = req_feed x (b ++ s).
Proof. exact feed_grow_more. Qed.
Print Assumptions C08_resume.

Example C08_nonvacuous :
  growing [[n2b 0]; [n2b 0; n2b 1; n2b 0]; [n2b 0; n2b 1; n2b 0; n2b 0; n2b 0; n2b 1; n2b 97]]
  /\ exists b r, first_answer req_ctx_new
    [[n2b 0]; [n2b 0; n2b 1; n2b 0]; [n2b 0; n2b 1; n2b 0; n2b 0; n2b 0; n2b 1; n2b 97]]
    = Some (b, FRequest r).
Proof.
  split.
  - apply (growing_cons [n2b 0] [n2b 1; n2b 0]).
    apply (growing_cons [n2b 0; n2b 1; n2b 0] [n2b 0; n2b 0; n2b 1; n2b 97]).
    apply growing_one.
  - eexists _, _. vm_compute. reflexivity.
Qed.

(** C09 fails: a request with count byte 0 followed by 257 empty arguments
    panics (the argument positions overflow their fixed capacity). *)
Theorem C09_refuted : exists buf, snd (req_feed req_ctx_new buf) = FPanic.
Proof. exact (ex_intro _ _ c09_false). Qed.
Print Assumptions C09_refuted.

(** C09, proved part: every feed of every buffer in every state ends ... *)
Theorem C09_terminates_partial : forall x buf, snd (req_feed x buf) <> FFuel.
Proof. exact req_feed_no_fuel. Qed.
Print Assumptions C09_terminates_partial.

(** ... and a panic needs a buffer with count byte 0 and one of at least 1030
    bytes. *)
Theorem C09_partial :
  forall bufs,
  In FPanic (snd (req_feeds req_ctx_new bufs)) ->
  exists b b', b ∈ bufs /\ b' ∈ bufs /\ b !! 1%nat = Some x00 /\ (1030 <= lenN b')%N.
Proof. exact c09_panic_zero_count. Qed.
Print Assumptions C09_partial.

(** C09: exactly what a new parser says to every input: an error, a request, a crash, or that more is
    needed; [read_as] is in [ParserSpec]. *)
Theorem C09_every_input_partial : forall buf, read_as buf (req_feed req_ctx_new buf).2.
Proof. exact c09_read_as. Qed.
Print Assumptions C09_every_input_partial.

(** C09: in particular, exactly when it panics. *)
Theorem C09_panics_exactly_partial :
  forall buf,
  (req_feed req_ctx_new buf).2 = FPanic <-> overfull buf.
Proof. exact c09_panics_iff. Qed.
Print Assumptions C09_panics_exactly_partial.

Example C09_every_input_nonvacuous :
  holds 2 (be_enc 4 2 ++ lit "ab" ++ be_enc 4 7 ++ lit "cde") /\
  snd (req_feed req_ctx_new
    ([n2b (command_id_to_u8 CEcho); n2b 2] ++ be_enc 4 2 ++ lit "ab" ++ be_enc 4 7 ++ lit "cde"))
  <> FNeedMore /\
  snd (req_feed req_ctx_new
    ([n2b (command_id_to_u8 CEcho); n2b 2] ++ be_enc 4 2 ++ lit "ab" ++ be_enc 4 7 ++ lit "cd"))
  = FNeedMore.
Proof.
  split_and!; [|by vm_compute..].
  apply holds_more; [done..|]. apply holds_last; [done|]. by vm_compute.
Qed.
