(** Properties of the network server when answers are written gradually: C104.
    The server is [ServerWrites], the vocabulary is in [WritesSpec] and [ServerSpec]. *)
From Coq Require Import String.
From Verif Require Import Bytes BytesFacts Value CommandId Request ReqContext Response Metrics Prog
  Commands EngineSpec WireSpec RequestSpec ParserSpec HistorySpec EngineProps Server ServerSpec ServerProps
  ServerWrites WritesSpec WritesFacts.
From stdpp Require Import gmap list.
From Coq Require Import NArith ZArith.

Definition rel : env := env_std false.
Definition a_store : store := store_of [(lit "n", VInteger 40)].
Definition stats : bytes := [n2b (command_id_to_u8 CStats)].
Definition get_n : bytes := wire_request CGet None [lit "n"].

(** C104: at every moment, what a peer got is the answers to the first messages it sent, whole and in
    order, except that a piece at the end of the last answer may be missing. *)
Theorem C104_prefix :
  forall e s0 evs ls s i l,
  env_ok e -> room_through evs s0 -> goes e s0 evs ls s -> ls !! i = Some l ->
  exists done rest rs missing,
    cut (closed_by_peer i evs) (arrived i evs) = done ++ rest /\
    Forall2 answers done rs /\
    (* the peer got the answers except for a piece at the end *)
    all_frames e rs = l_wire l ++ missing /\
    (* which belongs to the last answer *)
    (missing <> [] -> exists rs' r more, rs = rs' ++ [r] /\ l_wire l = all_frames e rs' ++ more) /\
    (* and is still to be written, unless the connection broke *)
    (NFail i ∉ evs -> missing = l_out l) /\
    (* when there is nothing left to do, all messages have been answered, up to one that makes
       the parser panic *)
    (NFail i ∉ evs -> idle e l s ->
     rest = [] \/ exists m rest', rest = m :: rest' /\ (req_feed req_ctx_new m).2 = FPanic).
Proof. exact c104_prefix. Qed.
Print Assumptions C104_prefix.

(** C104: from every state, also when other connections are stuck in the middle of writing, the task of a
    connection can go on by itself until it has nothing left to do and to write; the others stay as
    they are. *)
Theorem C104_nobody_waits :
  forall e s0 evs ls s i l,
  goes e s0 evs ls s -> ls !! i = Some l ->
  exists more ls' s' l', Forall (own_work i) more /\ goes e s0 (evs ++ more) ls' s' /\
    ls' !! i = Some l' /\ idle e l' s' /\ (forall j, j <> i -> ls' !! j = ls !! j).
Proof. exact c104_alone. Qed.
Print Assumptions C104_nobody_waits.

(** C104: after reading or writing failed, that peer gets nothing more and the task is over. *)
Theorem C104_broken :
  forall e s0 evs1 evs2 ls1 s1 ls2 s2 i l1 l2,
  goes e s0 evs1 ls1 s1 -> ls1 !! i = Some l1 ->
  goes e s0 (evs1 ++ NFail i :: evs2) ls2 s2 -> ls2 !! i = Some l2 ->
  l_wire l2 = l_wire l1 /\ idle e l2 s2.
Proof. exact c104_broken. Qed.
Print Assumptions C104_broken.

(** C104: and the stored data stays what it was. *)
Theorem C104_data :
  forall e s0 evs ls s,
  goes e s0 evs ls s -> st_keys s = st_keys s0.
Proof. exact c104_data. Qed.
Print Assumptions C104_data.

(** The first connection's peer takes 3 bytes of the answer and then no more; the second one is
    answered meanwhile; then writing to the first fails. *)
Example C104_nonvacuous :
  let evs := [NConnect; NConnect; NDeliver 0 (get_n ++ [newline] ++ get_n ++ [newline]); NStep 0; NStep 0;
              NStep 0; NWrite 0 3; NDeliver 1 (get_n ++ [newline]); NStep 1; NStep 1; NStep 1; NWrite 1 2;
              NWrite 1 4] in
  let x := end_of rel a_store evs in
  let y := end_of rel a_store (evs ++ [NFail 0]) in
  let a := resp_frame rel (RDispatchError EKeyUnspecified) in
  env_ok rel /\ room_through evs a_store /\ goes rel a_store evs x.1 x.2 /\
  goes rel a_store (evs ++ [NFail 0]) y.1 y.2 /\
  map l_wire x.1 = [take 3 a; a] /\ map l_out x.1 = [drop 3 a; []] /\
  links_run rel (evs ++ [NStep 0]) ([], a_store) = None /\
  map l_wire y.1 = [take 3 a; a] /\ map l_out y.1 = [[]; []].
Proof.
  split_and!; [apply env_std_ok| |apply goes_end; vm_compute; reflexivity
    |apply goes_end; vm_compute; reflexivity|vm_compute; reflexivity..].
  intros m. assert (Hc : default 0%N (st_counters a_store !! m) = 0%N) by (destruct m; vm_compute; reflexivity).
  rewrite Hc. vm_compute. reflexivity.
Qed.
