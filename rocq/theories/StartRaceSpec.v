(** Clients that add to a key that is not there yet (C120). *)
From Verif Require Import Locks LockSpec LockScripts LockScriptSpec.
From Verif Require Import Bytes Value CommandId Request Metrics Prog Commands EngineSpec WireSpec RequestSpec
  HistorySpec ConcSpec Scripts LinSpec KeyLinSpec.
From stdpp Require Import gmap list.
From Coq Require Import NArith ZArith.

(** What the amounts of several increments make: their sum.  What the items of several appends make: all of them. *)
Definition summed (ds : list Z) : value := VInteger (fold_right Z.add 0%Z ds).
Definition strung (t : key_type) (ls : list (list bytes)) : value :=
  match t with
  | KTList => VList (concat ls)
  | KTString => VString (concat (concat ls))
  | _ => VBytes (concat (concat ls))
  end.

(** Call [a] adds [d]: [amount c d] says that call [c] does. *)
Definition adds_there {A} (scripts : list (list call)) (amount : call -> A -> Prop) (a : nat * nat) (d : A) : Prop :=
  exists c, call_at scripts a = Some c /\ amount c d.

(** Call [b] may have undone what [a] added: it began before any call that adds was over, and was not over
    before [a] began.  [adds a d] says that call [a] adds [d], [bef a b] that [a] returned before [b] began. *)
Definition may_undo {A} (adds : nat * nat -> A -> Prop) (bef : nat * nat -> nat * nat -> Prop) (a b : nat * nat) : Prop :=
  b <> a /\ (exists d, adds b d) /\ ~ bef b a /\ forall a' d', adds a' d' -> ~ bef a' b.

(** [now], what is at the key, is made of the amounts [ds] of the calls [out], one after the other; or nothing is at
    the key and no call that adds has returned.  [over a] says that [a] has returned, [says a v] that it was told [v].
    - A call in [out] that has returned was told what it and those before it make.
    - Calls that came one after the other are in [out] in this order.
    - Every call that has returned was told what some calls make, itself last.
    - One that is not in [out] was undone, by a call that is in [out] or has not returned. *)
Definition made_of_adds {A} (adds : nat * nat -> A -> Prop) (total : list A -> value)
  (bef : nat * nat -> nat * nat -> Prop) (over : nat * nat -> Prop) (says : nat * nat -> value -> Prop)
  (now : option value) (out : list (nat * nat)) (ds : list A) : Prop :=
  NoDup out /\ Forall2 adds out ds /\
  (now = Some (total ds) \/ (now = None /\ out = [] /\ forall a d, adds a d -> ~ over a)) /\
  (forall i a, out !! i = Some a -> over a -> says a (total (take (S i) ds))) /\
  (forall i j a b, out !! i = Some a -> out !! j = Some b -> bef a b -> i < j) /\
  (forall a d, adds a d -> over a -> exists l es,
     NoDup (l ++ [a]) /\ Forall2 adds (l ++ [a]) es /\ says a (total es)) /\
  (forall a d, adds a d -> over a -> a ∉ out -> exists b, may_undo adds bef a b /\ (b ∈ out \/ ~ over b)).

(** Call [a] has returned, and that was the answer [v]: for clients, and for clients with the locks of the store. *)
Definition has_returned (x : system) (a : nat * nat) : Prop := exists r, returned x a r.
Definition was_told (scripts : list (list call)) (x : system) (a : nat * nat) (v : value) : Prop :=
  exists c r, call_at scripts a = Some c /\ returned x a r /\ responds (c_env c) (c_res c) v r.
Definition lhas_returned (x : lsystem) (a : nat * nat) : Prop := exists r, lreturned x a r.
Definition lwas_told (scripts : list (list call)) (x : lsystem) (a : nat * nat) (v : value) : Prop :=
  exists c r, call_at scripts a = Some c /\ lreturned x a r /\ responds (c_env c) (c_res c) v r.
