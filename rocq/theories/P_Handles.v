(** Handles, receivers and senders of subscriptions: C106.
    The actions are [sub_step] in [SubHandles]; the vocabulary is in [HandleSpec]. *)
From Coq Require Import String.
From Verif Require Import Bytes PubSub SubHandles HandleSpec HandleFacts.
From stdpp Require Import gmap list.
From Coq Require Import NArith ZArith.

(** C106, handles: upgrading one works exactly while the manager has the subscription on record or
    somebody has not dropped an earlier upgrade. *)
Theorem C106_upgrade :
  forall h x w,
  took_place h x ->
  upgrades x w <-> (exists k s, on_record x k s w) \/ (0 < upgraded h w)%Z.
Proof. exact c106_upgrade. Qed.
Print Assumptions C106_upgrade.

(** C106, handles: a handle that could not be upgraded can never be upgraded again. *)
Theorem C106_never_back :
  forall h h' x x' w,
  took_place h x -> given h w -> ~ upgrades x w ->
  took_place (h ++ h') x' -> ~ upgrades x' w.
Proof. exact c106_never_back. Qed.
Print Assumptions C106_never_back.

(** C106, receivers: the end is reached exactly when somebody closed the subscription, or its session
    was removed while it was on record, or it is gone and no sender taken from it is left. *)
Theorem C106_receive :
  forall h x w x' r,
  took_place h x -> sub_step x (UReceive w) = Some (x', r) ->
  exists b, r = UEnded b /\
    (b = true <-> was_closed h w \/ (~ upgrades x w /\ senders h w = 0%Z)).
Proof. exact c106_receive. Qed.
Print Assumptions C106_receive.

(** C106, senders: the same, with receivers for senders. *)
Theorem C106_send :
  forall h x w x' r,
  took_place h x -> sub_step x (USend w) = Some (x', r) ->
  exists b, r = UEnded b /\
    (b = true <-> was_closed h w \/ (~ upgrades x w /\ receivers h w = 0%Z)).
Proof. exact c106_send. Qed.
Print Assumptions C106_send.

(** C106: once somebody saw the end, everybody does from then on. *)
Theorem C106_for_good :
  forall h x w e e' x' r,
  took_place h x ->
  (e = UReceive w \/ e = USend w) -> (e, UEnded true) ∈ h ->
  (e' = UReceive w \/ e' = USend w) -> sub_step x e' = Some (x', r) -> r = UEnded true.
Proof. exact c106_for_good. Qed.
Print Assumptions C106_for_good.

(** Session 7 subscribes to a key; somebody upgrades the handle, takes a receiver and keeps it.
    Unsubscribing does not end the receiver while the upgraded handle is kept; dropping it does. *)
Definition kept : list sub_event :=
  [USubscribe (lit "k") 7; UGet (lit "k") 7; UUpgrade 0; UReceiver 0; UReceive 0;
   UUnsubscribe (lit "k") 7; UReceive 0; UUpgrade 0; UDrop 0; UDrop 0; UReceive 0; UUpgrade 0].
(** Here the session is removed; the sender sees it at once. *)
Definition removed : list sub_event :=
  [USubscribe (lit "k") 7; UUpgrade 0; USender 0; UReceiver 0; USend 0; URemoveSession 7; USend 0;
   UReceive 0; UDropReceiver 0; UUpgrade 0; UDrop 0; UDrop 0; UUpgrade 0].

Example C106_nonvacuous :
  took_place (play kept subs_new []).2 (play kept subs_new []).1 /\
  (play kept subs_new []).2 =
    [(USubscribe (lit "k") 7, UHandle (Some 0)); (UGet (lit "k") 7, UHandle (Some 0));
     (UUpgrade 0, UTold true); (UReceiver 0, UUnit); (UReceive 0, UEnded false);
     (UUnsubscribe (lit "k") 7, UTold true); (UReceive 0, UEnded false); (UUpgrade 0, UTold true);
     (UDrop 0, UUnit); (UDrop 0, UUnit); (UReceive 0, UEnded true); (UUpgrade 0, UTold false)]%N /\
  given (play kept subs_new []).2 0 /\
  took_place (play removed subs_new []).2 (play removed subs_new []).1 /\
  (play removed subs_new []).2 =
    [(USubscribe (lit "k") 7, UHandle (Some 0)); (UUpgrade 0, UTold true); (USender 0, UUnit);
     (UReceiver 0, UUnit); (USend 0, UEnded false); (URemoveSession 7, UTold true);
     (USend 0, UEnded true); (UReceive 0, UEnded true); (UDropReceiver 0, UUnit);
     (UUpgrade 0, UTold true); (UDrop 0, UUnit); (UDrop 0, UUnit); (UUpgrade 0, UTold false)]%N.
Proof.
  assert (E : (play kept subs_new []).2 !! 0%nat = Some (USubscribe (lit "k") 7, UHandle (Some 0)%N))
    by (vm_compute; reflexivity).
  split_and!; [apply play_took; constructor|vm_compute; reflexivity| |apply play_took; constructor|
    vm_compute; reflexivity].
  eexists. by eapply elem_of_list_lookup_2.
Qed.
