(** Properties of the network server: C39 - C41, C65.
    The server is [Server], the vocabulary is in [ServerSpec]. *)
From Coq Require Import String.
From Verif Require Import Bytes BytesFacts Value CommandId Request ReqContext Response Metrics Prog
  Commands EngineSpec WireSpec RequestSpec ParserSpec HistorySpec EngineProps Server ServerSpec ServerProps SegFacts.
From stdpp Require Import gmap list.
From Coq Require Import NArith ZArith.

Definition rel : env := env_std false.
Definition example_store : store := store_of [(lit "n", VInteger 40)].

Definition stats : bytes := [n2b (command_id_to_u8 CStats)].
Definition echo_hello : bytes := wire_request CEcho None [lit "hello"].
Definition get_n : bytes := wire_request CGet None [lit "n"].
Definition set_n : bytes := wire_request CSet (Some KTInteger) [lit "n"; i64_enc 7].

(** What connection [i] was sent. *)
Notation sent_to i x := (k_sent <$> (x.1 !! i)) (only parsing).
(** It has no step left. *)
Notation resting i x :=
  (match x.1 !! i with
   | Some c => match conn_step rel c x.2 with None => true | Some _ => false end
   | None => false end) (only parsing).

(** C39 is false: a request that is not followed by a newline is never answered, however long the
    server runs.  Its bytes are a whole request, which a new parser accepts. *)
Theorem C39_refuted :
  (forall (e : env) (s0 : store) (evs : list event) (cs : list conn) (s : store) (i : nat) (c : conn),
   env_ok e -> room_during evs s0 -> serves e s0 evs cs s -> cs !! i = Some c ->
   newline ∉ received i evs -> ended i evs = false -> k_sent c = []) /\
  newline ∉ get_n /\ exists req, (req_feed req_ctx_new get_n).2 = FRequest req.
Proof.
  split; [exact c39_no_newline|]. split.
  - apply (bool_decide_eq_true_1 (newline ∉ get_n)). vm_compute. reflexivity.
  - eexists. vm_compute. reflexivity.
Qed.
Print Assumptions C39_refuted.

(** C39 is false in another way: of everything sent on one line, only the request at its start is
    answered. *)
Theorem C39_one_answer_a_line :
  forall e s0 evs cs s i c x,
  env_ok e -> room_during evs s0 -> serves e s0 evs cs s -> cs !! i = Some c ->
  newline ∉ x -> received i evs = n2b (command_id_to_u8 CStats) :: x ++ [newline] ->
  at_rest e c s -> EFail i ∉ evs ->
  exists r, k_sent c = resp_frame e r /\ answers_bare CStats r.
Proof. exact c39_one_answer. Qed.
Print Assumptions C39_one_answer_a_line.

Example C39_one_answer_nonvacuous :
  let evs := [EConnect; EDeliver 0 (stats ++ get_n ++ stats ++ [newline])] ++ replicate 12 (EStep 0) in
  let x := outcome_of rel example_store
    ([EConnect; EDeliver 0 (stats ++ get_n ++ stats ++ [newline])] ++ replicate 6 (EStep 0)) in
  server_run rel evs ([], example_store) = None /\ resting 0%nat x = true /\
  sent_to 0%nat x = Some (resp_frame rel (RValue (VMap ∅))).
Proof. vm_compute. split_and!; reflexivity. Qed.

(** C39: the strongest true statement.  The stream is cut into messages at the newlines where a new
    parser would be done; the responses written answer the first messages, in order, and when the
    task has no step left they answer all of them.  (It stops at a message that makes the parser
    panic, see C65.) *)
Theorem C39_partial :
  forall e s0 evs cs s i c,
  env_ok e -> room_during evs s0 -> serves e s0 evs cs s -> cs !! i = Some c ->
  exists done rest rs,
    cut (ended i evs) (received i evs) = done ++ rest /\
    Forall2 answers done rs /\ k_sent c = all_frames e rs /\
    (at_rest e c s -> EFail i ∉ evs -> rest = [] \/
       exists m rest', rest = m :: rest' /\ (req_feed req_ctx_new m).2 = FPanic).
Proof. exact c39_order. Qed.
Print Assumptions C39_partial.

(** C39: requests that the parser accepts, each followed by a newline: one response each, in order.
    Missing: requests with no argument, requests with a newline in a critical place. *)
Theorem C39_lines_partial :
  forall e s0 evs cs s i c (l : list (bytes * (response -> Prop))),
  env_ok e -> room_during evs s0 -> serves e s0 evs cs s -> cs !! i = Some c ->
  Forall (fun x => sendable x.1 x.2) l ->
  received i evs = concat (map (fun x => x.1 ++ [newline]) l) ->
  at_rest e c s -> EFail i ∉ evs ->
  exists rs, k_sent c = all_frames e rs /\ Forall2 (fun x r => x.2 r) l rs.
Proof. exact c39_lines. Qed.
Print Assumptions C39_lines_partial.

(** C39: a task that is scheduled always comes to rest. *)
Theorem C39_comes_to_rest :
  forall e s0 evs cs s i c,
  serves e s0 evs cs s -> cs !! i = Some c ->
  exists n cs' s' c', serves e s0 (evs ++ replicate n (EStep i)) cs' s' /\
    cs' !! i = Some c' /\ at_rest e c' s'.
Proof. exact c39_rest. Qed.
Print Assumptions C39_comes_to_rest.

Definition lines : list (bytes * (response -> Prop)) :=
  [(echo_hello, answers_bare CEcho); (stats, answers_bare CStats); (get_n, answers_bare CGet);
   (set_n, fun r => r = RParseError PEKeyTypeInvalid)].
Example C39_nonvacuous :
  let stream := concat (map (fun x => x.1 ++ [newline]) lines) in
  let evs := [EConnect; EDeliver 0 (take 5 stream); EStep 0; EDeliver 0 (drop 5 stream)]
             ++ replicate 13 (EStep 0) in
  let x := outcome_of rel example_store evs in
  Forall (fun x => sendable x.1 x.2) lines /\ received 0 evs = stream /\
  serves rel example_store evs x.1 x.2 /\ resting 0%nat x = true /\ length (x.1) = 1%nat /\
  sent_to 0%nat x = Some (all_frames rel
    [RValue (VList []); RValue (VMap (list_to_map [(lit "commands_successful", i64_enc 1)]));
     RDispatchError EKeyUnspecified; RParseError PEKeyTypeInvalid]).
Proof.
  split_and!; [|vm_compute; reflexivity|apply serves_outcome; vm_compute; reflexivity
    |vm_compute; reflexivity|vm_compute; reflexivity|vm_compute; reflexivity].
  repeat (apply Forall_cons; split); [| | | |constructor].
  - apply sendable_untyped; [done|done|by vm_compute|by repeat constructor|].
    apply (bool_decide_eq_true_1 (newline ∉ _)). vm_compute. reflexivity.
  - apply sendable_simple.
  - apply sendable_untyped; [done|done|by vm_compute|by repeat constructor|].
    apply (bool_decide_eq_true_1 (newline ∉ _)). vm_compute. reflexivity.
  - apply sendable_typed.
    apply (bool_decide_eq_true_1 (newline ∉ _)). vm_compute. reflexivity.
Qed.

(** C40: whatever happens on whatever connections, the stored data stays what it was. *)
Theorem C40_data_unchanged :
  forall e s0 evs cs s,
  serves e s0 evs cs s -> st_keys s = st_keys s0.
Proof. exact c40_data. Qed.
Print Assumptions C40_data_unchanged.

(** C40: and every response is an error or the answer to a request without arguments. *)
Theorem C40_answers :
  forall e s0 evs cs s i c,
  env_ok e -> room_during evs s0 -> serves e s0 evs cs s -> cs !! i = Some c ->
  exists rs, k_sent c = all_frames e rs /\
    forall r, r ∈ rs -> (exists err, r = RParseError err) \/ (exists c, answers_bare c r).
Proof. exact c40_answers. Qed.
Print Assumptions C40_answers.

Example C40_nonvacuous :
  let evs := [EConnect; EConnect; EDeliver 1 (set_n ++ [newline]); EDeliver 0 (get_n ++ [newline]);
              EStep 0; EStep 1; EStep 0; EStep 0] in
  let x := outcome_of rel example_store evs in
  env_ok rel /\ room_during evs example_store /\ serves rel example_store evs x.1 x.2 /\
  sent_to 0%nat x = Some (all_frames rel [RDispatchError EKeyUnspecified]) /\
  sent_to 1%nat x = Some (all_frames rel [RParseError PEKeyTypeInvalid]) /\
  st_keys x.2 !! lit "n" = Some (VInteger 40).
Proof.
  split_and!; [apply env_std_ok| |apply serves_outcome; vm_compute; reflexivity
    |vm_compute; reflexivity..].
  apply room_outcome; [intros []; vm_compute; reflexivity|vm_compute; reflexivity].
Qed.

(** C41: two connections, of the same or of different servers, that received the same bytes (in
    whatever pieces and interleaved with whatever else), and have no step left: the same responses,
    except for the numbers in answers to Stats, which count what happens on other connections too. *)
Theorem C41_same_answers :
  forall e1 s1 evs1 cs1 t1 i1 c1 e2 s2 evs2 cs2 t2 i2 c2,
  env_ok e1 -> room_during evs1 s1 -> serves e1 s1 evs1 cs1 t1 -> cs1 !! i1 = Some c1 ->
  env_ok e2 -> room_during evs2 s2 -> serves e2 s2 evs2 cs2 t2 -> cs2 !! i2 = Some c2 ->
  received i1 evs1 = received i2 evs2 -> ended i1 evs1 = ended i2 evs2 ->
  EFail i1 ∉ evs1 -> EFail i2 ∉ evs2 -> at_rest e1 c1 t1 -> at_rest e2 c2 t2 ->
  exists rs1 rs2, k_sent c1 = all_frames e1 rs1 /\ k_sent c2 = all_frames e2 rs2 /\
    Forall2 like rs1 rs2 /\ (k_task c1 = TCrashed <-> k_task c2 = TCrashed).
Proof. exact c41. Qed.
Print Assumptions C41_same_answers.

(** C41: for every run of the server and every other way to cut what a connection received there is a run
    where it receives those pieces, everything else happens as before, all connections are sent the
    same, the state is the same, and the connection is as far as before. *)
Theorem C41_any_segmentation :
  forall e s0 evs cs s i c ps,
  serves e s0 evs cs s -> cs !! i = Some c -> concat ps = received i evs ->
  exists evs' c', serves e s0 evs' (<[i := c']> cs) s /\
    pieces i evs' = ps /\ besides i evs' = besides i evs /\
    k_sent c' = k_sent c /\ k_task c' = k_task c /\ (at_rest e c s -> at_rest e c' s).
Proof. exact c41_any. Qed.
Print Assumptions C41_any_segmentation.

(** C41: when the server has no other connection, exactly the same bytes, and the same state after it. *)
Theorem C41_alone :
  forall e s0 evs1 c1 s1 evs2 c2 s2,
  serves e s0 evs1 [c1] s1 -> serves e s0 evs2 [c2] s2 ->
  received 0 evs1 = received 0 evs2 -> ended 0 evs1 = ended 0 evs2 ->
  EFail 0 ∉ evs1 -> EFail 0 ∉ evs2 -> at_rest e c1 s1 -> at_rest e c2 s2 ->
  k_sent c1 = k_sent c2 /\ s1 = s2.
Proof. exact c41_alone. Qed.
Print Assumptions C41_alone.

(** C41: those bytes are what dispatching the messages one by one gives. *)
Theorem C41_alone_sequential :
  forall e s0 evs c s,
  serves e s0 evs [c] s -> EFail 0 ∉ evs -> at_rest e c s ->
  exists alive, one_by_one e s0 (cut (ended 0 evs) (received 0 evs)) = (k_sent c, s, alive).
Proof. exact c41_sequential. Qed.
Print Assumptions C41_alone_sequential.

Example C41_nonvacuous :
  let stream := get_n ++ [newline] ++ echo_hello ++ [newline] ++ stats in
  let evs1 := [EConnect; EDeliver 0 stream; EEnd 0] ++ replicate 14 (EStep 0) in
  let evs2 := EConnect :: concat (map (fun b => [EDeliver 0 [b]; EStep 0]) (take 10 stream))
              ++ [EDeliver 0 (drop 10 stream); EEnd 0] ++ replicate 11 (EStep 0) in
  let x1 := outcome_of rel example_store evs1 in let x2 := outcome_of rel example_store evs2 in
  received 0 evs1 = received 0 evs2 /\ ended 0 evs1 = ended 0 evs2 /\
  serves rel example_store evs1 x1.1 x1.2 /\ serves rel example_store evs2 x2.1 x2.2 /\
  resting 0%nat x1 = true /\ resting 0%nat x2 = true /\
  sent_to 0%nat x1 = sent_to 0%nat x2 /\ (lenN (concat (map k_sent x1.1)) = 81)%N.
Proof.
  split_and!; try (apply serves_outcome); vm_compute; reflexivity.
Qed.

(** C65: a connection's task crashes only on a message of its own stream that is [overfull]: an argument
    count of zero, then 257 arguments.  What other connections are sent does not come into it. *)
Theorem C65_crash_own_bytes :
  forall e s0 evs cs s i c,
  env_ok e -> room_during evs s0 -> serves e s0 evs cs s -> cs !! i = Some c ->
  k_task c = TCrashed ->
  exists m, m ∈ cut (ended i evs) (received i evs) /\ overfull m.
Proof. exact c65. Qed.
Print Assumptions C65_crash_own_bytes.

(** C65: and when its task has no step left, exactly then. *)
Theorem C65_exactly :
  forall e s0 evs cs s i c,
  env_ok e -> room_during evs s0 -> serves e s0 evs cs s -> cs !! i = Some c ->
  at_rest e c s -> EFail i ∉ evs ->
  (k_task c = TCrashed <-> exists m, m ∈ cut (ended i evs) (received i evs) /\ overfull m).
Proof. exact c65_exactly. Qed.
Print Assumptions C65_exactly.

(** Such a message does crash it, and an earlier one is answered; the other connection is served. *)
Example C65_nonvacuous :
  let bad := [n2b (command_id_to_u8 CGet); n2b 0] ++ repeat (n2b 0) 1028 ++ [newline] in
  let evs := [EConnect; EConnect; EDeliver 0 (stats ++ [newline] ++ bad); EDeliver 1 (get_n ++ [newline])]
             ++ replicate 7 (EStep 0) ++ replicate 3 (EStep 1) in
  let x := outcome_of rel example_store evs in
  serves rel example_store evs x.1 x.2 /\
  map (fun c => match k_task c with TCrashed => true | _ => false end) x.1 = [true; false] /\
  sent_to 0%nat x = Some (resp_frame rel (RValue (VMap ∅))) /\
  sent_to 1%nat x = Some (resp_frame rel (RDispatchError EKeyUnspecified)).
Proof. split_and!; try (apply serves_outcome); vm_compute; reflexivity. Qed.
