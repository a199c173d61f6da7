(** Properties of requests on any implementation of the client's [Backend] trait: C103.
    The vocabulary is in [AnySpec] and [FluentSpec]; the code is in [AnyBackend]. *)
From Coq Require Import String.
From Verif Require Import Bytes BytesFacts Value Metrics Prog Commands HistorySpec Client ClientSpec
  Fluent FluentSpec FluentFacts AnyBackend AnySpec AnyFacts.
From stdpp Require Import gmap list.
From Coq Require Import NArith ZArith Lia.

(** C103: whatever the backend does, what it goes through and what the program sees are those of [progresses]:
    the first poll of a request begins the call its chain asks for and polls it, later polls poll that same
    future while it is in flight, a request that is over asks nothing of the backend and panics, dropping a
    request drops the future in flight, and the program sees the backend's answers. *)
Theorem C103_any_backend :
  forall (W F E : Type) (B : backend W F E) (h : list event) (w : W),
  compiles h ->
  ap_world (any_run B h w) = pg_world (progresses B h w) /\
  ap_seen (any_run B h w) = pg_seen (progresses B h w).
Proof. exact c103. Qed.
Print Assumptions C103_any_backend.

(** C103: the log of [logged] changes nothing else. *)
Theorem C103_log :
  forall (W F E : Type) (B : backend W F E) (h : list event) (w : W) (log : list (nat * deed E)),
  (ap_world (any_run (logged B) h (w, log))).1 = ap_world (any_run B h w) /\
  ap_seen (any_run (logged B) h (w, log)) = ap_seen (any_run B h w).
Proof. exact c103_log. Qed.
Print Assumptions C103_log.

(** C103: the calls begun on the backend are those that the chains ask for, once each, in the order of the first
    polls, and no others, whatever the backend answers. *)
Theorem C103_calls :
  forall (W F E : Type) (B : backend W F E) (h : list event) (w : W),
  compiles h ->
  calls_begun (ap_world (any_run (logged B) h (w, []))).2 = map passed_on (map snd (calls_made h)).
Proof. exact c103_calls. Qed.
Print Assumptions C103_calls.

(** C103: each call begun on a backend is polled only while it is pending and comes to exactly one end, an
    answer, a panic or a drop; only requests that the program still holds can have one under way. *)
Theorem C103_lives :
  forall (W F E : Type) (B : backend W F E) (h : list event) (w : W) (id : nat),
  compiles h ->
  let l := deeds id (ap_world (any_run (logged B) h (w, []))).2 in
  l = [] \/ ended l \/
  under_way l /\ exists i, (i < length (started h))%nat /\ was_polled i h = true /\ ~ gone h i.
Proof. exact c103_lives. Qed.
Print Assumptions C103_lives.

(** C103: the memory backend is one of them: with it, all is as in C98. *)
Theorem C103_memory :
  forall (h : list event) (s : store),
  compiles h ->
  ap_world (any_run memory_backend h s) = fl_store (fluents h s) /\
  ap_seen (any_run memory_backend h s) = map as_view (fl_seen (fluents h s)).
Proof. exact c103_memory. Qed.
Print Assumptions C103_memory.

(** A backend that answers at the third poll, echoes what is set, says 7 to all else, and counts the
    futures dropped. *)
Definition slow : backend nat (nat * client_call) bytes :=
  Backend (fun w c => (w, match c with KDelete _ => None | _ => Some (2%nat, c) end))
    (fun _ w f => (w, match f with
      | (S n, c) => Later (n, c)
      | (O, KSet _ v) => Now (inl (RpValue v))
      | (O, KStats) => Now (inr (lit "none"))
      | (O, KEcho _) => Dies
      | _ => Now (inl (RpValue (VInteger 7)))
      end))
    (fun w _ => S w).

Notation rel := (env_std false) (only parsing).
Definition held_up : list event :=
  [FStart (NGet (lit "a")); FCall 0 (MAs KTString); FStart (NIncrement (lit "n")); FCall 1 (MAs KTInteger);
   FPoll rel 1; FCall 1 (MByInt 9); FPoll rel 0; FPoll rel 0; FPoll rel 1; FPoll rel 0; FPoll rel 1; FPoll rel 1;
   FStart (NGet (lit "b")); FPoll rel 2; FCall 2 (MAs KTList);
   FStart NStats; FPoll rel 3; FDrop 3; FStart (NDelete (lit "d")); FPoll rel 4; FPoll rel 4;
   FStart (NKeys (lit "e")); FDrop 5].

Ltac clash := try done; match goal with
  | H : _ /\ (_ \/ _) |- _ => destruct H as [? [(? & ? & ? & ?)|[? ?]]]; simplify_eq; done
  end.
Ltac walk a Ha Hb := cbn in Ha; first [discriminate Ha
  | destruct a as [|a]; [cbn in Ha; injection Ha as <-; cbn in Hb; clash | walk a Ha Hb]].
Ltac there := let a := fresh "a" in let b := fresh "b" in let Ha := fresh "Ha" in let Hb := fresh "Hb" in
  intros (a & b & Ha & Hb); walk a Ha Hb.

Example C103_nonvacuous :
  compiles held_up /\
  ap_world (any_run (logged slow) held_up (0%nat, [])) =
    (2%nat,
     [(0%nat, DBegun (KIncrementBy (lit "n") (VInteger 1))); (0%nat, DPending);
      (2%nat, DBegun (KGet (lit "a"))); (2%nat, DPending); (2%nat, DPending); (0%nat, DPending);
      (2%nat, DAnswered (inl (RpValue (VInteger 7)))); (0%nat, DAnswered (inl (RpValue (VInteger 7))));
      (8%nat, DBegun (KGet (lit "b"))); (8%nat, DPending); (8%nat, DDropped);
      (11%nat, DBegun KStats); (11%nat, DPending); (11%nat, DDropped);
      (14%nat, DBegun (KDelete (lit "d"))); (14%nat, DDied)]) /\
  ap_seen (any_run slow held_up 0%nat) =
    [WNothing; WNothing; WNothing; WNothing; WPending; WNothing; WPending; WPending; WPending; WPanic;
     WReady (inl (RpValue (VInteger 7))); WPanic; WNothing; WPending; WPanic; WNothing; WPending; WNothing;
     WNothing; WPanic; WPanic; WNothing; WNothing].
Proof.
  split; [|split; vm_compute; reflexivity].
  intros j ev Hj.
  do 23 (destruct j as [|j];
    [cbn in Hj; injection Hj as <-; cbn [take held_up];
     first [exact I | split; [first [solve [there] | cbn; lia]|];
                      first [solve [there] | by eexists | by cbn]]|]).
  done.
Qed.
