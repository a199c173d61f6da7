(** What users of subscriptions see (C106). *)
From Verif Require Import Bytes PubSub SubHandles.
From stdpp Require Import gmap list.
From Coq Require Import NArith ZArith.

(** What users did, with what they saw. *)
Definition sub_history : Type := list (sub_event * sub_res).

Inductive took_place : sub_history -> subs -> Prop :=
| took_nothing : took_place [] subs_new
| took_one h x e x' r : took_place h x -> sub_step x e = Some (x', r) ->
    took_place (h ++ [(e, r)]) x'.

(** How often something happened. *)
Fixpoint times (same : sub_event * sub_res -> bool) (h : sub_history) : Z :=
  match h with
  | [] => 0
  | a :: h => ((if same a then 1 else 0) + times same h)%Z
  end.

(** How many upgraded handles, receivers and senders of the subscription are in use. *)
Definition upgraded (h : sub_history) (w : N) : Z :=
  (times (fun a => match a with (UUpgrade v, UTold true) => N.eqb v w | _ => false end) h -
   times (fun a => match a with (UDrop v, _) => N.eqb v w | _ => false end) h)%Z.
Definition receivers (h : sub_history) (w : N) : Z :=
  (times (fun a => match a with (UReceiver v, _) => N.eqb v w | _ => false end) h -
   times (fun a => match a with (UDropReceiver v, _) => N.eqb v w | _ => false end) h)%Z.
Definition senders (h : sub_history) (w : N) : Z :=
  (times (fun a => match a with (USender v, _) => N.eqb v w | _ => false end) h -
   times (fun a => match a with (UDropSender v, _) => N.eqb v w | _ => false end) h)%Z.

(** The manager gave this handle to somebody. *)
Definition given (h : sub_history) (w : N) : Prop := exists e, (e, UHandle (Some w)) ∈ h.

(** Asking the manager now for the subscription of [s] to [k] gives this one. *)
Definition on_record (x : subs) (k : bytes) (s : N) (w : N) : Prop :=
  exists x', sub_step x (UGet k s) = Some (x', UHandle (Some w)).

(** Upgrading the handle works. *)
Definition upgrades (x : subs) (w : N) : Prop :=
  exists x', sub_step x (UUpgrade w) = Some (x', UTold true).

(** Somebody closed it, or its session was removed while it was on record. *)
Definition was_closed (h : sub_history) (w : N) : Prop :=
  (exists r, (UClose w, r) ∈ h) \/
  exists h1 s r h2 x k, h = h1 ++ (URemoveSession s, r) :: h2 /\ took_place h1 x /\ on_record x k s w.
