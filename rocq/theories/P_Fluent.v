(** Properties of chains of methods on a client and its requests: C98.
    The vocabulary is in [FluentSpec]; the methods are in [Fluent], polling in [Futures]. *)
From Coq Require Import String.
From Verif Require Import Bytes BytesFacts Value Metrics Prog Commands HistorySpec Client ClientSpec
  Fluent FluentSpec FluentFacts.
From stdpp Require Import gmap list.
From Coq Require Import NArith ZArith Lia.

(** C98: whatever methods a program calls on its requests, and in whatever order it polls them, the store is the
    result of the calls the chains ask for, made in the order of the first polls, and each event shows what
    [sees] says: a refusal, a panic, or the result of the call. *)
Theorem C98_chains :
  forall (h : list event) (s : store),
  compiles h ->
  fl_store (fluents h s) = (mem_calls (calls_made h) s).1 /\
  length (fl_seen (fluents h s)) = length h /\
  forall j ev, h !! j = Some ev ->
    fl_seen (fluents h s) !! j = Some (sees (take j h) ev s).
Proof. exact c98. Qed.
Print Assumptions C98_chains.

(** Chains of all sorts: a typed increment whose amount is set twice, a length whose type is set twice,
    keys refused before anything is sent, a get that is turned into a typed one after it was polled,
    an amount set after the call was made, a request that is never awaited. *)
Notation rel := (env_std false) (only parsing).
Definition program : list event :=
  [FStart (NIncrement (lit "n")); FCall 0 (MAs KTInteger); FCall 0 (MByInt 7); FCall 0 (MByInt 5);
   FStart NExists; FCall 1 (MKeys []);
   FStart (NGet (lit "n")); FPoll rel 0; FPoll rel 2; FCall 2 (MAs KTInteger);
   FStart (NSet (lit "l")); FCall 3 (MList [lit "a"; lit "b"]); FPoll rel 3;
   FStart (NLength (lit "l")); FCall 4 (MAs KTMap); FCall 4 (MAs KTList); FPoll rel 4;
   FCall 0 (MByInt 9); FPoll rel 0; FStart (NDelete (lit "l")); FDrop 5].

Ltac clash := try done; match goal with
  | H : _ /\ (_ \/ _) |- _ => destruct H as [? [(? & ? & ? & ?)|[? ?]]]; simplify_eq; done
  end.
Ltac walk a Ha Hb := cbn in Ha; first [discriminate Ha
  | destruct a as [|a]; [cbn in Ha; injection Ha as <-; cbn in Hb; clash | walk a Ha Hb]].
Ltac there := let a := fresh "a" in let b := fresh "b" in let Ha := fresh "Ha" in let Hb := fresh "Hb" in
  intros (a & b & Ha & Hb); walk a Ha Hb.

Example C98_nonvacuous :
  compiles program /\
  calls_made program =
    [(rel, KIncrementInt (lit "n") (Some 5%Z)); (rel, KGet (lit "n"));
     (rel, KSetTyped (lit "l") (VList [lit "a"; lit "b"])); (rel, KLength (lit "l") (Some KTList))] /\
  fl_seen (fluents program store_new) =
    [GNothing; GNothing; GNothing; GNothing; GNothing; GRefused NoKeys; GNothing;
     GReady (ROk (RpValue (VInteger 5))); GReady (ROk (RpValue (VInteger 5))); GPanic;
     GNothing; GNothing; GReady (ROk (RpValue (VList [lit "a"; lit "b"])));
     GNothing; GNothing; GNothing; GReady (ROk (RpInt 2)); GNothing; GPanic; GNothing; GNothing].
Proof.
  split; [|split; vm_compute; reflexivity].
  intros j ev Hj.
  do 21 (destruct j as [|j];
    [cbn in Hj; injection Hj as <-; cbn [take program];
     first [exact I | split; [first [solve [there] | cbn; lia]|];
                      first [solve [there] | by eexists | by cbn]]|]).
  done.
Qed.
