(** What a peer can make the server send and keep: C107.
    The server is [Server], the vocabulary is in [CostSpec] and [ServerSpec]. *)
From Coq Require Import String.
From Verif Require Import Bytes BytesFacts Value CommandId Request ReqContext Response Metrics Prog
  Commands EngineSpec WireSpec RequestSpec ParserSpec HistorySpec EngineProps Server ServerSpec
  ServerProps CostSpec CostFacts.
From stdpp Require Import gmap list.
From Coq Require Import NArith ZArith.

Definition rel : env := env_std false.
(** Three counters, so that statistics are as large as they get. *)
Definition busy_store : store :=
  Store ∅ (list_to_map [(MCommandsErrored, 3); (MCommandsSuccessful, 5); (MSessionsStarted, 7)])%N.

(** A peer is sent at most 97 bytes for every line it sends. *)
Theorem C107_sent :
  forall e s0 evs cs s i c,
  env_ok e -> room_during evs s0 -> serves e s0 evs cs s -> cs !! i = Some c ->
  (lenN (k_sent c) <= largest_answer * lines_sent i evs)%N.
Proof. exact c107_sent. Qed.
Print Assumptions C107_sent.

(** The bound is reached: two lines of two bytes, 194 bytes of answers. *)
Example C107_sent_nonvacuous :
  let line := [n2b (command_id_to_u8 CStats); newline] in
  let evs := [EConnect; EDeliver 0 (line ++ line)] ++ replicate 12 (EStep 0) in
  let x := outcome_of rel busy_store evs in
  serves rel busy_store evs x.1 x.2 /\ lines_sent 0 evs = 2%N /\ largest_answer = 97%N /\
  (fun c => lenN (k_sent c)) <$> (x.1 !! 0%nat) = Some 194%N.
Proof. split; [apply serves_outcome; vm_compute; reflexivity|]. vm_compute. split_and!; reflexivity. Qed.

(** That the server keeps a bounded amount for a peer is false: whatever the amount, a peer that
    sends no newline makes it keep more, and is not sent anything. *)
Theorem C107_refuted :
  forall e s0 (n : N),
  exists evs c, serves e s0 evs [c] s0 /\ k_task c = TReading /\ at_rest e c s0 /\
    k_sent c = [] /\ (n <= lenN (kept c))%N.
Proof. exact c107_unbounded. Qed.
Print Assumptions C107_refuted.

(** What the task of a connection has read and keeps while it reads is exactly the part of the stream
    that is no whole message yet. *)
Theorem C107_kept_partial :
  forall e s0 evs cs s i c,
  env_ok e -> room_during evs s0 -> serves e s0 evs cs s -> cs !! i = Some c ->
  k_task c = TReading -> ended i evs = false ->
  exists read, received i evs = read ++ k_unread c /\ k_input c = unfinished read.
Proof. exact c107_kept. Qed.
Print Assumptions C107_kept_partial.

(** At any time what a connection that is not closed keeps is the end of what it received. *)
Theorem C107_suffix_partial :
  forall e s0 evs cs s i c,
  env_ok e -> room_during evs s0 -> serves e s0 evs cs s -> cs !! i = Some c ->
  k_task c <> TClosed -> kept c `suffix_of` received i evs.
Proof. exact c107_suffix. Qed.
Print Assumptions C107_suffix_partial.

Example C107_kept_nonvacuous :
  let line := [n2b (command_id_to_u8 CStats); newline] in
  let stream := line ++ wire_request CGet None [lit "n"] in
  let evs := [EConnect; EDeliver 0 stream] ++ replicate 7 (EStep 0) ++ [EDeliver 0 (lit "ab")] in
  let x := outcome_of rel busy_store evs in
  serves rel busy_store evs x.1 x.2 /\ ended 0 evs = false /\
  unfinished stream = wire_request CGet None [lit "n"] /\
  (fun c => (k_input c, k_unread c, match k_task c with TReading => true | _ => false end))
    <$> (x.1 !! 0%nat) = Some (wire_request CGet None [lit "n"], lit "ab", true).
Proof. split; [apply serves_outcome; vm_compute; reflexivity|]. vm_compute. split_and!; reflexivity. Qed.
