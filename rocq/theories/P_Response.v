(** Properties of the response wire format: C10 - C16.  The vocabulary
    ([within_limits], [resp_wf], [undecodable_empty], [write_all], [cut_frames],
    [resp_feeds]) is in [WireSpec]. *)
From Coq Require Import String.
From Verif Require Import Bytes BytesFacts Utf8 Value CommandId Response RespContext
  WireSpec IdsFacts ResponseFacts RespContextFacts RespProps RespExact RespLimits.
From stdpp Require Import gmap list.
From Coq Require Import NArith ZArith.

(** C10: whatever was in the buffer and in whatever order [e] iterates maps and
    sets, the bytes appended for [r] are decoded by a fresh parser, of either build
    profile, to [r]. *)
Theorem C10_response_round_trip :
  forall e dbg' r to,
  env_ok e -> within_limits r -> resp_wf r -> undecodable_empty dbg' r = false ->
  exists msg, copy_to e r to = Ok (to ++ msg) /\
    snd (resp_feed dbg' resp_ctx_new msg) = PConcluded r.
Proof. exact c10_round_trip. Qed.
Print Assumptions C10_response_round_trip.

Definition c10_map : gmap bytes bytes :=
  {[ lit "a" := lit "one"; lit "bb" := []; [] := lit "three" ]}.

Example C10_nonvacuous :
  env_ok (env_std true) /\ within_limits (RValue (VMap c10_map)) /\
  resp_wf (RValue (VMap c10_map)) /\ undecodable_empty true (RValue (VMap c10_map)) = false.
Proof.
  split; [by split|]. split; [|done]. split; [vm_compute; reflexivity|]. split.
  - intros k v. unfold c10_map. rewrite !lookup_insert_Some, lookup_singleton_Some.
    intros [[<- _]|[_ [[<- _]|[_ [<- _]]]]]; vm_compute; reflexivity.
  - vm_compute; reflexivity.
Qed.

(** C11: a response is appended as a 4-byte length and exactly that many bytes. *)
Theorem C11_frame_length :
  forall e r to,
  env_ok e -> within_limits r ->
  exists body, copy_to e r to = Ok (to ++ be_enc 4 (lenN body) ++ body) /\
               (lenN body < u32_mod)%N /\ body <> [].
Proof. exact c11_frame. Qed.
Print Assumptions C11_frame_length.

(** C11: a buffer of responses is cut by the length fields into one frame per
    response, each being what writing that response alone gives. *)
Theorem C11_stream_is_cut :
  forall e rs to,
  env_ok e -> Forall within_limits rs ->
  exists out frames, write_all e rs to = Ok (to ++ out) /\
    cut_frames (S (length rs)) out = Some frames /\
    Forall2 (fun r f => copy_to e r [] = Ok f) rs frames.
Proof. exact c11_stream. Qed.
Print Assumptions C11_stream_is_cut.

Example C11_nonvacuous :
  let rs := [RValue (VList [lit "x"; lit "yz"]); RDispatchError EKeyNonexistent;
             RValue (VInteger (-1))] in
  Forall within_limits rs /\
  exists out, write_all (env_std false) rs (lit "before") = Ok (lit "before" ++ out)
              /\ lenN out = 37%N.
Proof.
  cbn zeta. split.
  - repeat constructor; vm_compute; reflexivity.
  - eexists. split; vm_compute; reflexivity.
Qed.

(** C12: fed any sequence of strict prefixes of a message, the parser asks each
    time for a positive number of bytes that are indeed missing, and for exactly the
    missing number once it has the 4-byte header; the whole message then concludes. *)
Theorem C12_asks_for_missing_bytes :
  forall e r msg ps,
  env_ok e -> within_limits r -> resp_wf r -> undecodable_empty (debug e) r = false ->
  copy_to e r [] = Ok msg ->
  Forall (fun p => exists q, q <> [] /\ msg = p ++ q) ps ->
  exists answers,
    resp_feeds (debug e) resp_ctx_new (ps ++ [msg])
      = (resp_ctx_new, answers ++ [PConcluded r]) /\
    Forall2 (fun p a => exists n, a = PReadBytes n /\
      (1 <= n <= lenN msg - lenN p)%N /\
      ((4 <= lenN p)%N -> n = (lenN msg - lenN p)%N)) ps answers.
Proof. exact c12_prefixes. Qed.
Print Assumptions C12_asks_for_missing_bytes.

Example C12_nonvacuous :
  exists msg, copy_to (env_std true) (RValue (VString (lit "hello"))) [] = Ok msg /\
  Forall (fun p => exists q, q <> [] /\ msg = p ++ q) [take 2 msg; take 6 msg; take 11 msg].
Proof.
  eexists. split; [vm_compute; reflexivity|].
  repeat constructor; eexists; (split; [|symmetry; apply take_drop]); vm_compute; discriminate.
Qed.

(** C12, for any bytes at all and any parser state: after asking for bytes the parser goes
    on from the longer input as if it had seen it from the start. *)
Theorem C12_asking_forgets_nothing :
  forall dbg x b s x1 n,
  resp_feed dbg x b = (x1, PReadBytes n) -> resp_feed dbg x1 (b ++ s) = resp_feed dbg x (b ++ s).
Proof. exact c12_resume. Qed.
Print Assumptions C12_asking_forgets_nothing.

Example C12_asking_nonvacuous :
  resp_feed true resp_ctx_new [x00; x00; x00; n2b 1; n2b (response_type_to_u8 RTInteger)] =
  (RespCtx 5 SInteger, PReadBytes 1).
Proof. vm_compute. reflexivity. Qed.

(** C13: bytes after a message change nothing, and the parser is as new. *)
Theorem C13_trailing_bytes :
  forall e r msg s,
  env_ok e -> within_limits r -> resp_wf r -> undecodable_empty (debug e) r = false ->
  copy_to e r [] = Ok msg ->
  resp_feed (debug e) resp_ctx_new (msg ++ s) = (resp_ctx_new, PConcluded r).
Proof. exact c13_trailing. Qed.
Print Assumptions C13_trailing_bytes.

(** C13: one parser decodes a whole stream of responses, message by message. *)
Theorem C13_parser_reuse :
  forall e rs out,
  env_ok e -> Forall (fun r => within_limits r /\ resp_wf r /\
                              undecodable_empty (debug e) r = false) rs ->
  write_all e rs [] = Ok out ->
  exists msgs, cut_frames (S (length rs)) out = Some msgs /\
    resp_feeds (debug e) resp_ctx_new msgs = (resp_ctx_new, map PConcluded rs).
Proof. exact c13_stream. Qed.
Print Assumptions C13_parser_reuse.

Example C13_nonvacuous :
  Forall (fun r => within_limits r /\ resp_wf r /\ undecodable_empty true r = false)
    [RValue (VList [lit "x"; []]); RParseError PEKeyTypeInvalid; RValue (VFloat 7)].
Proof. repeat constructor; vm_compute; reflexivity. Qed.

(** C13, for any bytes at all and any parser state: an answer or error, once given, does not
    depend on later bytes. *)
Theorem C13_any_input :
  forall dbg x b s x1 r,
  resp_feed dbg x b = (x1, r) -> (forall n, r <> PReadBytes n) -> r <> PPanic ->
  resp_feed dbg x (b ++ s) = (x1, r).
Proof. exact c13_any_input. Qed.
Print Assumptions C13_any_input.

(** C14 fails: a complete message holding an empty list or set is not concluded
    (more bytes are asked for), and in a debug build empty bytes crash the parser. *)
Theorem C14_refuted :
  forall e,
  env_ok e ->
  (exists msg, copy_to e (RValue (VList [])) [] = Ok msg /\
     snd (resp_feed (debug e) resp_ctx_new msg) = PReadBytes 4) /\
  (exists msg, copy_to e (RValue (VSet ∅)) [] = Ok msg /\
     snd (resp_feed (debug e) resp_ctx_new msg) = PReadBytes 2) /\
  (exists msg, copy_to e (RValue (VBytes [])) [] = Ok msg /\
     snd (resp_feed true resp_ctx_new msg) = PPanic).
Proof. exact c14_false. Qed.
Print Assumptions C14_refuted.

(** C14: worse, the bytes that follow an empty list are taken for its item. *)
Theorem C14_refuted_misparse :
  forall e dbg item s,
  env_ok e -> (lenN item < u32_mod)%N ->
  exists msg, copy_to e (RValue (VList [])) [] = Ok msg /\
    snd (resp_feed dbg resp_ctx_new (msg ++ be_enc 4 (lenN item) ++ item ++ s))
    = PConcluded (RValue (VList [item])).
Proof. exact c14_misparse_msg. Qed.
Print Assumptions C14_refuted_misparse.

(** C14, proved part: empty maps and strings survive in both builds, empty bytes in
    release builds.  Missing: empty lists and sets; empty bytes in debug builds. *)
Theorem C14_partial :
  forall e s,
  env_ok e ->
  (exists msg, copy_to e (RValue (VMap ∅)) [] = Ok msg /\
     forall dbg', resp_feed dbg' resp_ctx_new (msg ++ s) = (resp_ctx_new, PConcluded (RValue (VMap ∅)))) /\
  (exists msg, copy_to e (RValue (VString [])) [] = Ok msg /\
     forall dbg', resp_feed dbg' resp_ctx_new (msg ++ s) = (resp_ctx_new, PConcluded (RValue (VString [])))) /\
  (exists msg, copy_to e (RValue (VBytes [])) [] = Ok msg /\
     resp_feed false resp_ctx_new (msg ++ s) = (resp_ctx_new, PConcluded (RValue (VBytes [])))).
Proof. exact c14_decodes. Qed.
Print Assumptions C14_partial.

Example C14_nonvacuous : env_ok (env_std true).
Proof. by split. Qed.

(** C15 fails: in both builds, a map whose key is 256 bytes long is written and then
    decoded to another map, without an error on either side. *)
Theorem C15_refuted :
  forall dbg,
  let m : gmap bytes bytes := {[ repeat x00 256 := lit "v" ]} in
  exists msg, copy_to (env_std dbg) (RValue (VMap m)) [] = Ok msg /\
    snd (resp_feed dbg resp_ctx_new msg) = PConcluded (RValue (VMap {[ [] := [] ]})) /\
    m <> {[ [] := [] ]}.
Proof. exact c15_false. Qed.
Print Assumptions C15_refuted.

(** C15, proved part: in a debug build, when keys and items fit their length fields
    (and the number of map entries or set items fits 16 bits), the value is refused
    by the writer or decoded back; lists may have any number of items.  Missing: longer keys
    and items, which are corrupted; see below for exactly what happens in both builds. *)
Theorem C15_partial :
  forall e v s,
  env_ok e -> debug e = true ->
  match v with
  | VList l => l <> [] /\ Forall (fun x => lenN x < u32_mod)%N l
  | VMap m => (N.of_nat (size m) < u16_mod)%N /\
              forall k x, m !! k = Some x -> (lenN k < 256 /\ lenN x < u32_mod)%N
  | VSet s => s <> ∅ /\ (N.of_nat (size s) < u16_mod)%N /\ forall x, x ∈ s -> (lenN x < u16_mod)%N
  | _ => False
  end ->
  copy_to e (RValue v) [] = Panic \/
  exists msg, copy_to e (RValue v) [] = Ok msg /\
    resp_feed true resp_ctx_new (msg ++ s) = (resp_ctx_new, PConcluded (RValue v)).
Proof. exact c15_debug. Qed.
Print Assumptions C15_partial.

Example C15_nonvacuous :
  debug (env_std true) = true /\
  [lit "a"; lit "b"] <> [] /\ Forall (fun x => lenN x < u32_mod)%N [lit "a"; lit "b"].
Proof. repeat constructor; discriminate. Qed.

(** C15, exactly what is refused, in both builds; and what is written is always the frame of the
    format, with lengths and numbers cut to the widths of their fields. *)
Theorem C15_written_partial :
  forall e r to,
  env_ok e ->
  (copy_to e r to = Panic <-> refused (debug e) r) /\
  (forall out, copy_to e r to = Ok out -> out = to ++ resp_frame e r).
Proof. exact c15_written. Qed.
Print Assumptions C15_written_partial.

(** C15, exactly what comes back, in both builds: what was written is decoded to itself if and only if
    every part fits its field, and it is not one of the empty values of C14. *)
Theorem C15_exactly_partial :
  forall e r msg s,
  env_ok e -> resp_wf r -> copy_to e r [] = Ok msg ->
  (snd (resp_feed (debug e) resp_ctx_new (msg ++ s)) = PConcluded r <->
   parts_fit r /\ undecodable_empty (debug e) r = false).
Proof. exact c15_exactly. Qed.
Print Assumptions C15_exactly_partial.

(** A map that fits, one that does not, and bytes that only a release build writes. *)
Example C15_exactly_nonvacuous :
  let m : gmap bytes bytes := {[ lit "k" := lit "v" ]} in
  let m' : gmap bytes bytes := {[ repeat x00 256 := lit "v" ]} in
  env_ok (env_std true) /\ resp_wf (RValue (VMap m)) /\
  parts_fit (RValue (VMap m)) /\ undecodable_empty true (RValue (VMap m)) = false /\
  ~ refused true (RValue (VMap m')) /\ ~ parts_fit (RValue (VMap m')) /\
  (forall bs, lenN bs = (u32_mod - 5)%N ->
     refused true (RValue (VBytes bs)) /\ ~ refused false (RValue (VBytes bs)) /\ parts_fit (RValue (VBytes bs))).
Proof.
  cbv zeta. split_and!.
  - apply env_std_ok.
  - done.
  - split; [by vm_compute|]. intros k v [<- <-]%lookup_singleton_Some. by vm_compute.
  - done.
  - intros [_ [H|[]]]. apply H. vm_compute. reflexivity.
  - intros [_ H]. destruct (H (repeat x00 256) (lit "v")) as [H' _]; [apply lookup_singleton|].
    vm_compute in H'. discriminate.
  - intros bs Hb. split_and!.
    + split; [done|]. left. cbn [added_up]. rewrite Hb. vm_compute. discriminate.
    + by intros [? _].
    + cbn. rewrite Hb. vm_compute. reflexivity.
Qed.

(** C16 fails: an unknown error code panics; a bytes message that stops after its
    kind asks for no bytes at all; a list message that stops there panics in debug
    builds and asks for 2^64 - 2 bytes in release builds. *)
Theorem C16_refuted :
  (forall dbg code, dispatch_error_of_u8 (b2n code) = None ->
     snd (resp_feed dbg resp_ctx_new
       [x00; x00; x00; n2b 2; n2b (response_type_to_u8 RTDispatchError); code]) = PPanic) /\
  (forall dbg, snd (resp_feed dbg resp_ctx_new
       [x00; x00; x00; n2b 1; n2b (response_type_to_u8 RTBytes)]) = PReadBytes 0) /\
  snd (resp_feed true resp_ctx_new
       [x00; x00; x00; n2b 1; n2b (response_type_to_u8 RTList)]) = PPanic /\
  snd (resp_feed false resp_ctx_new
       [x00; x00; x00; n2b 1; n2b (response_type_to_u8 RTList)]) = PReadBytes (u64_mod - 2).
Proof. exact c16_false. Qed.
Print Assumptions C16_refuted.

(** C16, proved part: the parser terminates on every input, and in a release build
    it panics only on an error message with an unknown code.  Debug builds and the
    requests for bytes are in [C16_crashes_exactly_partial] and [C16_stalls_exactly_partial]. *)
Theorem C16_partial :
  forall buf,
  match snd (resp_feed false resp_ctx_new buf) with
  | PPanic => exists kind code, get_at buf 4 = Some kind /\ get_at buf 5 = Some code /\
      (kind = n2b (response_type_to_u8 RTDispatchError) /\ dispatch_error_of_u8 (b2n code) = None \/
       kind = n2b (response_type_to_u8 RTParseError) /\ parse_error_of_u8 (b2n code) = None)
  | PFuel => False
  | _ => True
  end.
Proof. exact c16_release. Qed.
Print Assumptions C16_partial.

(** C16, proved part: termination for every parser state and profile. *)
Theorem C16_terminates_partial :
  forall dbg x buf, snd (resp_feed dbg x buf) <> PFuel.
Proof. exact resp_feed_no_fuel. Qed.
Print Assumptions C16_terminates_partial.

(** C16, proved part: while a message is shorter than its header announces, both
    builds only ask for a positive number of bytes. *)
Theorem C16_incomplete_partial :
  forall dbg p,
  (lenN p < 4 \/ exists h t, p = h ++ t /\ lenN h = 4 /\ lenN t < be_dec h)%N ->
  exists n, resp_feed dbg resp_ctx_new p = (resp_ctx_new, PReadBytes n) /\ (1 <= n)%N.
Proof. exact c16_incomplete. Qed.
Print Assumptions C16_incomplete_partial.

(** C16, proved part: exactly which inputs crash a fresh parser. *)
Theorem C16_crashes_exactly_partial :
  forall dbg buf, snd (resp_feed dbg resp_ctx_new buf) = PPanic <-> crashes dbg buf.
Proof. exact c16_crashes. Qed.
Print Assumptions C16_crashes_exactly_partial.

(** C16, proved part: exactly which inputs make it ask for nothing. *)
Theorem C16_stalls_exactly_partial :
  forall dbg buf, snd (resp_feed dbg resp_ctx_new buf) = PReadBytes 0 <-> stalls buf.
Proof. exact c16_stalls. Qed.
Print Assumptions C16_stalls_exactly_partial.

Example C16_exactly_nonvacuous :
  crashes true [x00; x00; x00; n2b 2; n2b (response_type_to_u8 RTSet); x00] /\
  stalls [x00; x00; x00; n2b 1; n2b (response_type_to_u8 RTString)].
Proof.
  split.
  - exists (n2b (response_type_to_u8 RTSet)), [x00]. split; [by exists [x00; x00; x00; n2b 2]|done].
  - exists (n2b (response_type_to_u8 RTString)). split; [by exists [x00; x00; x00; n2b 1]|by right].
Qed.

Example C16_nonvacuous :
  dispatch_error_of_u8 (b2n (n2b 200)) = None /\
  exists h t, [x00; x00; x00; n2b 9; n2b 5] = h ++ t /\ lenN h = 4%N /\ (lenN t < be_dec h)%N.
Proof. split; [done|]. exists [x00; x00; x00; n2b 9], [n2b 5]. done. Qed.
