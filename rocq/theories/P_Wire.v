(** Properties of calls that share one connection: C83.
    The calls are [Wire], the vocabulary is in [ShareSpec]. *)
From Coq Require Import String.
From Verif Require Import Bytes BytesFacts Value CommandId Request ReqContext RespContext Metrics Prog
  Commands Client WireSpec Wire ShareSpec WireFacts.
From stdpp Require Import gmap list.
From Coq Require Import NArith ZArith Lia ZifyNat ZifyN ZifyBool.

Definition rel : env := env_std false.

Definition del_a : bytes := wire_request CDelete None [lit "a"].
Definition echo_hello : bytes := wire_request CEcho None [lit "hello"].

(** C83 is false: a call that is dropped while it writes leaves a part of its request, and the
    request of the next call follows it.  What is sent is no sequence of whole requests. *)
Theorem C83_refuted :
  exists evs x,
    wire_run rel [echo_hello; del_a] evs (wire_new [echo_hello; del_a]) = Some x /\
    w_calls x = [WDropped; WReturned (RErr CEConnectionClosed)] /\
    ~ exists order, in_turn [echo_hello; del_a] order [] (w_sent x).
Proof.
  destruct (c83_cut rel echo_hello del_a 3) as (evs & x & E & Hc & Hs).
  { vm_compute. lia. } { done. }
  exists evs, x. split_and!; [done|done|]. rewrite Hs. intros (order & Hnd & whole & Hm & Hw).
  apply (f_equal length) in Hw. rewrite app_length in Hw. cbn [length] in Hw.
  assert (Hl : forall i, i ∈ order -> i = 0%nat \/ i = 1%nat).
  { intros i Hi. apply mapM_Some_1 in Hm. apply elem_of_list_lookup in Hi as [j Hj].
    destruct (Forall2_lookup_l _ _ _ _ _ Hm Hj) as (r & _ & Hr).
    destruct i as [|[|i]]; auto. by rewrite lookup_ge_None_2 in Hr by (cbn; lia). }
  assert (Hcases : order = [] \/ order = [0%nat] \/ order = [1%nat] \/ order = [0%nat; 1%nat] \/ order = [1%nat; 0%nat]).
  { clear -Hnd Hl. destruct order as [|i [|j [|k order]]]; [by left| | |].
    - destruct (Hl i) as [->| ->]; [left|auto|auto].
    - apply NoDup_cons in Hnd as [Hi _].
      destruct (Hl i) as [->| ->]; [left| |]; (destruct (Hl j) as [->| ->]; [right; left| |]); auto;
        destruct Hi; left.
    - exfalso. apply NoDup_cons in Hnd as [Hi Hnd]. apply NoDup_cons in Hnd as [Hj _].
      assert (i <> j /\ i <> k /\ j <> k) as (? & ? & ?).
      { split_and!; intros ->; [apply Hi; left|apply Hi; right; left|apply Hj; left]. }
      destruct (Hl i), (Hl j), (Hl k); subst; try done; try (by left); try (by right; left);
        by right; right; left. }
  destruct Hcases as [->|[->|[->|[->| ->]]]]; injection Hm as <-; vm_compute in Hw; discriminate.
Qed.
Print Assumptions C83_refuted.

(** C83: this happens to any two requests, wherever the first is cut. *)
Theorem C83_dropped_partial :
  forall e (a b : bytes) n,
  (1 <= n <= length a)%nat -> b <> [] ->
  exists evs x, wire_run e [a; b] evs (wire_new [a; b]) = Some x /\
    w_calls x = [WDropped; WReturned (RErr CEConnectionClosed)] /\
    w_sent x = take n a ++ b.
Proof. exact c83_cut. Qed.
Print Assumptions C83_dropped_partial.

(** The server then reads the second request as an argument of the first. *)
Example C83_dropped_nonvacuous :
  (1 <= 7 <= length echo_hello)%nat /\ del_a <> [] /\
  match (req_feed req_ctx_new (take 7 echo_hello ++ del_a)).2 with
  | FRequest r => bool_decide (r_command r = CEcho)
  | _ => false
  end = true.
Proof. split_and!; [vm_compute; lia|vm_compute; lia|done|vm_compute; reflexivity]. Qed.

(** C83: as long as no call was dropped and none failed to write, what is sent is the whole requests
    of the calls, one after the other, by the order in which they got hold of the connection, and then the
    part that the call which is writing has written. *)
Theorem C83_whole_partial :
  forall e reqs evs x,
  wire_run e reqs evs (wire_new reqs) = Some x ->
  (forall i c, w_calls x !! i = Some c -> ~ cut_off c) ->
  exists order part,
    in_turn reqs order part (w_sent x) /\
    (forall i c, w_calls x !! i = Some c ->
       match c with
       | WQueued => i ∉ order
       | WWriting rest => i ∉ order /\ reqs !! i = Some (part ++ rest)
       | _ => i ∈ order
       end) /\
    ((forall i rest, w_calls x !! i <> Some (WWriting rest)) -> part = []).
Proof. exact c83_whole. Qed.
Print Assumptions C83_whole_partial.

(** C83: whatever happened, the calls can all come to an end: none waits for another for ever. *)
Theorem C83_finishes :
  forall e reqs evs x,
  wire_run e reqs evs (wire_new reqs) = Some x ->
  exists more y, Forall smooth more /\ wire_run e reqs (evs ++ more) (wire_new reqs) = Some y /\
    forall i c, w_calls y !! i = Some c -> is_over c.
Proof. exact c83_finishes. Qed.
Print Assumptions C83_finishes.

(** C83: none of them gets an answer (see C44). *)
Theorem C83_results :
  forall e reqs evs x i r,
  wire_run e reqs evs (wire_new reqs) = Some x ->
  w_calls x !! i = Some (WReturned r) ->
  r = RErr CEConnectionClosed \/ r = RErr CEWritingMessage.
Proof. exact c83_results. Qed.
Print Assumptions C83_results.

Definition evs : list wire_event :=
  [WLock 1; WWrite 1 2; WWrite 1 2; WWrite 1 3; WDone 1; WLock 0; WWrite 0 1; WRead 1 [x00] false; WWrite 0 4].
Definition state_of (x : option wire) : wire := default (wire_new []) x.
Example C83_nonvacuous :
  let reqs := [echo_hello; del_a; del_a] in
  let x := state_of (wire_run rel reqs evs (wire_new reqs)) in
  wire_run rel reqs evs (wire_new reqs) = Some x /\
  (forall i c, w_calls x !! i = Some c -> ~ cut_off c) /\
  w_calls x = [WWriting (drop 5 echo_hello); WReturned (RErr CEConnectionClosed); WQueued] /\
  w_sent x = del_a ++ take 5 echo_hello.
Proof.
  split_and!; [vm_compute; reflexivity| |vm_compute; reflexivity..].
  intros i c H. vm_compute in H. destruct i as [|[|[|i]]]; cbn in H; try (injection H as <-); try done;
    by intros [?|?].
Qed.
