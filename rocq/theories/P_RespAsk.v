(** Property C122: how many bytes a response parser asks for.  The vocabulary is in [RespAskSpec]. *)
From Coq Require Import String.
From Verif Require Import Bytes BytesFacts Value CommandId Response RespContext WireSpec Utf8Spec
  RespReadSpec RespExact RespRead RespAskSpec RespAsk.
From stdpp Require Import gmap list.
From Coq Require Import NArith ZArith Lia.
From Coq.Init Require Import Byte.

(** The header of the examples: a message of at least one byte. *)
Definition header : bytes := [x00; x00; x00; x01].
Lemma with_header kind rest : message_in (header ++ kind :: rest) kind rest.
Proof. exists header. split; [done|]. split; [done|]. change (be_dec header) with 1%N. lia. Qed.

(** C122 is false of the code: when a set's last member lacks its last byte, the parser asks for ten bytes more than
    the members before it take up, although it is done with that one byte. *)
Theorem C122_set_refuted :
  forall dbg buf kind c l (x : bytes) b,
  message_in buf kind (be_enc 2 c ++ members l ++ be_enc 2 (lenN (x ++ [b])) ++ x) -> b2n kind = 6%N ->
  (c < u16_mod)%N -> Forall (fun x => lenN x < u16_mod)%N (l ++ [x ++ [b]]) ->
  (x ++ [b]) ∉ l -> (distinct l + 1 = N.max 1 c)%N ->
  (resp_feed dbg resp_ctx_new buf).2 = PReadBytes (10 + lenN (members l)) /\
  (resp_feed dbg resp_ctx_new (buf ++ [b])).2 = PConcluded (RValue (VSet (list_to_set (l ++ [x ++ [b]])))) /\
  ~ needs_all dbg buf (10 + lenN (members l)).
Proof. exact c122_too_much_set. Qed.
Print Assumptions C122_set_refuted.

(** C122 is false of the code: the same when a map's last value lacks its last byte. *)
Theorem C122_map_refuted :
  forall dbg buf kind c l (key x : bytes) b,
  message_in buf kind (be_enc 2 c ++ entries l ++ be_enc 1 (lenN key) ++ key ++ be_enc 4 (lenN (x ++ [b])) ++ x) ->
  b2n kind = 5%N -> (c < u16_mod)%N ->
  Forall (fun kv => lenN kv.1 < 256 /\ lenN kv.2 < u32_mod)%N (l ++ [(key, x ++ [b])]) ->
  key ∉ l.*1 -> (distinct l.*1 + 1 = c)%N ->
  (resp_feed dbg resp_ctx_new buf).2 = PReadBytes (13 + lenN (entries l) + lenN key) /\
  (exists v, (resp_feed dbg resp_ctx_new (buf ++ [b])).2 = PConcluded (RValue v)) /\
  ~ needs_all dbg buf (13 + lenN (entries l) + lenN key).
Proof. exact c122_too_much_map. Qed.
Print Assumptions C122_map_refuted.

(** C122 is false of the code: in a release build, when a message ends within the length of bytes, the parser asks for
    nearly 2^64 bytes. *)
Theorem C122_length_refuted :
  forall buf kind (bs p q : bytes),
  message_in buf kind p -> b2n kind = 1%N -> (lenN bs < u32_mod)%N ->
  be_enc 4 (lenN bs) = p ++ q -> p <> [] -> q <> [] ->
  (resp_feed false resp_ctx_new buf).2 = PReadBytes (u64_mod - lenN p) /\
  (resp_feed false resp_ctx_new (buf ++ q ++ bs)).2 = PConcluded (RValue (VBytes bs)) /\
  ~ needs_all false buf (u64_mod - lenN p).
Proof. exact c122_too_much_length. Qed.
Print Assumptions C122_length_refuted.

(** C122 is false of the code: when a message ends before the length of bytes or of a string, the parser asks for no
    bytes at all. *)
Theorem C122_nothing_refuted :
  forall dbg buf kind,
  message_in buf kind [] -> b2n kind = 1%N \/ b2n kind = 7%N -> (resp_feed dbg resp_ctx_new buf).2 = PReadBytes 0.
Proof. exact c122_nothing. Qed.
Print Assumptions C122_nothing_refuted.

(** C122 (partial: that it asks for something): in all other cases it asks for at least one byte. *)
Theorem C122_something_partial :
  forall dbg buf,
  (resp_feed dbg resp_ctx_new buf).2 = PReadBytes 0 ->
  exists kind, message_in buf kind [] /\ (b2n kind = 1%N \/ b2n kind = 7%N).
Proof. exact c122_something. Qed.
Print Assumptions C122_something_partial.

(** C122 (partial: for every kind what is asked for, where the property is false too): the exact number of bytes
    asked for when by its header a message is complete, but ends too soon. *)
Theorem C122_within_partial :
  forall dbg buf kind rest k n,
  message_in buf kind rest -> b2n kind = kind_number k ->
  (resp_feed dbg resp_ctx_new buf).2 = PReadBytes n <-> asks_within dbg k rest n.
Proof. exact c122_within. Qed.
Print Assumptions C122_within_partial.

(** C122 (partial: while the message, by its header, is incomplete): exactly what is missing is asked for. *)
Theorem C122_before_partial :
  forall dbg buf n,
  (forall kind rest, ~ message_in buf kind rest) ->
  (resp_feed dbg resp_ctx_new buf).2 = PReadBytes n <-> asks_before buf n.
Proof. exact c122_before. Qed.
Print Assumptions C122_before_partial.

(** C122 (partial: while the message, by its header, is incomplete): with fewer bytes than asked for, the parser
    still asks. *)
Theorem C122_fair_before_partial :
  forall dbg buf n,
  (forall kind rest, ~ message_in buf kind rest) ->
  (resp_feed dbg resp_ctx_new buf).2 = PReadBytes n -> needs_all dbg buf n.
Proof. exact c122_fair_before. Qed.
Print Assumptions C122_fair_before_partial.

(** C122 (partial: not within the members of a set or the entries of a map, nor within a length or number that
    follows the kind): with fewer bytes than asked for, the parser still asks. *)
Theorem C122_fair_partial :
  forall dbg buf kind rest k n,
  message_in buf kind rest -> b2n kind = kind_number k -> counts_right k rest ->
  (resp_feed dbg resp_ctx_new buf).2 = PReadBytes n -> needs_all dbg buf n.
Proof. exact c122_fair. Qed.
Print Assumptions C122_fair_partial.

(** A set of "a" and "bc" without the "c": 13 bytes are asked for, and one is enough. *)
Example C122_set_nonvacuous :
  exists buf, message_in buf (n2b 6) (be_enc 2 2 ++ members [lit "a"] ++ be_enc 2 (lenN (lit "b" ++ lit "c")) ++ lit "b") /\
    (resp_feed true resp_ctx_new buf).2 = PReadBytes 13 /\
    (resp_feed true resp_ctx_new (buf ++ lit "c")).2 = PConcluded (RValue (VSet {[ lit "a"; lit "bc" ]})).
Proof.
  exists (header ++ n2b 6 :: be_enc 2 2 ++ members [lit "a"] ++ be_enc 2 (lenN (lit "b" ++ lit "c")) ++ lit "b").
  split; [apply with_header|].
  destruct (c122_too_much_set true _ (n2b 6) 2 [lit "a"] (lit "b") (n2b 99) (with_header _ _)) as (E1 & E2 & _).
  - done.
  - by vm_compute.
  - repeat constructor.
  - rewrite elem_of_list_singleton. by vm_compute.
  - by vm_compute.
  - split; [exact E1|]. change (lit "c") with [n2b 99]. rewrite E2. do 3 f_equal. set_solver.
Qed.

(** A map of "k" to "xy" without the "y": 14 bytes are asked for. *)
Example C122_map_nonvacuous :
  exists buf, message_in buf (n2b 5) (be_enc 2 1 ++ entries [] ++ be_enc 1 (lenN (lit "k")) ++ lit "k" ++
      be_enc 4 (lenN (lit "x" ++ [n2b 121])) ++ lit "x") /\
    (resp_feed false resp_ctx_new buf).2 = PReadBytes 14 /\ ~ needs_all false buf 14.
Proof.
  exists (header ++ n2b 5 :: be_enc 2 1 ++ entries [] ++ be_enc 1 (lenN (lit "k")) ++ lit "k" ++
      be_enc 4 (lenN (lit "x" ++ [n2b 121])) ++ lit "x").
  split; [apply with_header|].
  destruct (c122_too_much_map false _ (n2b 5) 1 [] (lit "k") (lit "x") (n2b 121) (with_header _ _)) as (E1 & _ & E2).
  - done.
  - by vm_compute.
  - repeat constructor.
  - by apply not_elem_of_nil.
  - by vm_compute.
  - split; [exact E1|exact E2].
Qed.

(** The length of bytes of which one byte, or none, has come. *)
Example C122_length_nonvacuous :
  (resp_feed false resp_ctx_new (header ++ [n2b 1; x00])).2 = PReadBytes 18446744073709551615 /\
  (resp_feed false resp_ctx_new (header ++ [n2b 1; x00] ++ [x00; x00; x02] ++ lit "hi")).2 = PConcluded (RValue (VBytes (lit "hi"))) /\
  (resp_feed true resp_ctx_new (header ++ [n2b 1])).2 = PReadBytes 0.
Proof.
  destruct (c122_too_much_length (header ++ [n2b 1; x00]) (n2b 1) (lit "hi") [x00] [x00; x00; x02] (with_header _ _)) as (E1 & E2 & _);
    [done|by vm_compute|by vm_compute|done|done|].
  split; [exact E1|]. split; [exact E2|]. apply (c122_nothing true _ (n2b 1)); [apply with_header|by left].
Qed.

(** A list of two items, "ab" and one of five bytes of which three have come: two bytes are asked for, and with one
    of them one more is. *)
Example C122_fair_nonvacuous :
  let buf := header ++ n2b 4 :: be_enc 2 2 ++ items [lit "ab"] ++ be_enc 4 5 ++ lit "cde" in
  (resp_feed true resp_ctx_new buf).2 = PReadBytes 2 /\ needs_all true buf 2 /\ asks_within true RTList (drop 5 buf) 2.
Proof.
  cbv zeta. set (rest := be_enc 2 2 ++ items [lit "ab"] ++ be_enc 4 5 ++ lit "cde").
  assert (Hw : asks_within true RTList rest 2).
  { right. exists 2%N, [lit "ab"], (be_enc 4 5 ++ lit "cde"). split_and!; [done|by vm_compute|repeat constructor|by vm_compute|].
    right. exists 5%N, (lit "cde"). split_and!; by vm_compute. }
  assert (E : (resp_feed true resp_ctx_new (header ++ n2b 4 :: rest)).2 = PReadBytes 2).
  { by apply (c122_within true _ (n2b 4) rest RTList 2 (with_header _ _)). }
  split; [exact E|]. split; [|exact Hw].
  apply (c122_fair true _ (n2b 4) rest RTList 2 (with_header _ _)); [done| |exact E]. by vm_compute.
Qed.

(** Two bytes of the header; a header that announces nine bytes of which two have come. *)
Example C122_before_nonvacuous :
  (resp_feed true resp_ctx_new [x00; x00]).2 = PReadBytes 2 /\
  (resp_feed true resp_ctx_new ([x00; x00; x00; x09] ++ [n2b 3; x00])).2 = PReadBytes 7 /\
  needs_all true ([x00; x00; x00; x09] ++ [n2b 3; x00]) 7 /\ asks_before ([x00; x00; x00; x09] ++ [n2b 3; x00]) 7.
Proof.
  assert (Hno : forall kind rest, ~ message_in ([x00; x00; x00; x09] ++ [n2b 3; x00]) kind rest).
  { intros kind rest (h & E & Hh & Hl). apply app_inj_1 in E as [<- E]; [|unfold lenN in Hh; cbn; lia].
    injection E as <- <-. by vm_compute in Hl. }
  assert (E : (resp_feed true resp_ctx_new ([x00; x00; x00; x09] ++ [n2b 3; x00])).2 = PReadBytes 7) by (by vm_compute).
  split; [by vm_compute|]. split; [exact E|]. split; [by apply c122_fair_before|]. by apply (c122_before true).
Qed.
