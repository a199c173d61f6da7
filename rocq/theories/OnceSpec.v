(** Clients that add to a key while others set it, delete it or rename it away (C121). *)
From Verif Require Import Locks LockSpec LockScripts LockScriptSpec.
From Verif Require Import Bytes Value CommandId Request Metrics Prog Commands EngineSpec WireSpec RequestSpec
  HistorySpec ConcSpec Scripts LinSpec KeyLinSpec TakeRaceSpec ForwardSpec.
From stdpp Require Import gmap list.
From Coq Require Import NArith ZArith.

(** The call sets [k] to [v], and names the type. *)
Definition sets_to (k : bytes) (c : call) (v : value) : Prop :=
  exists l, asks (c_req c) CSet (Some (kind v)) (k :: l) /\ value_of (kind v) l = Some v.

(** What a counter is after several increments, and a value after several appends. *)
Definition counted_up (v : value) (ds : list Z) : value :=
  match v with VInteger z => VInteger (z + fold_right Z.add 0%Z ds)%Z | _ => v end.
Definition written_on (v : value) (ls : list (list bytes)) : value :=
  match v with
  | VList l => VList (l ++ concat ls)
  | VString b => VString (b ++ concat (concat ls))
  | VBytes b => VBytes (b ++ concat (concat ls))
  | _ => v
  end.

Section once.
  Context {A : Type}.
  (** [adds a d]: call [a] adds [d].  [puts b v]: call [b] sets the key to [v].  [dels b]: call [b] deletes the key.
      [sends b]: call [b] renames it away.  [first]: what is at the key at the beginning, [zero]: the empty value.
      [bef a b]: [a] returned before [b] began. *)
  Context (adds : nat * nat -> A -> Prop) (puts : nat * nat -> value -> Prop) (dels sends : nat * nat -> Prop)
    (first : option value) (zero : value) (bef : nat * nat -> nat * nat -> Prop).

  (** The call certainly takes away what is at the key, to put something else there or not; it may do so. *)
  Definition clears (b : nat * nat) : Prop := dels b \/ exists v, puts b v.
  Definition may_clear (b : nat * nat) : Prop := clears b \/ sends b.

  (** Call [b] may have found nothing at the key: nothing was there at the beginning and [b] began before any
      call that adds was over; or a call [t] that began before [b] was over took it away, and there was no call in
      between that adds.  [begun a]: [a] has begun. *)
  Definition found_nothing (begun : nat * nat -> Prop) (b : nat * nat) : Prop :=
    (first = None /\ forall a d, adds a d -> ~ bef a b) \/
    exists t, may_clear t /\ begun t /\ ~ bef b t /\ forall a d, adds a d -> bef t a -> ~ bef a b.

  (** Call [b] may have undone what [a] added: it was not over before [a] began, and it takes away what is at
      the key, or adds to it and may have found nothing there. *)
  Definition may_wipe (begun : nat * nat -> Prop) (a b : nat * nat) : Prop :=
    b <> a /\ begun b /\ ~ bef b a /\ (may_clear b \/ ((exists d, adds b d) /\ found_nothing begun b)).

  (** What the amounts are added to: the empty value, if the key may be missing; what was there at the beginning, if
      nothing that is over took it away; or what a call set, if nothing that is over took it away after that.
      [some b]: [b] has begun, [past t]: [t] is over. *)
  Definition base_of (some past : nat * nat -> Prop) (v : value) : Prop :=
    (v = zero /\ (first = None \/ exists t, may_clear t /\ some t)) \/
    (first = Some v /\ forall t, clears t -> ~ past t) \/
    (exists b, puts b v /\ some b /\ forall t, clears t -> past t -> ~ bef b t).

  (** Some different calls that add, in the order in which they came: nothing that is over took away what one of
      them had added before. *)
  Definition added_up (past : nat * nat -> Prop) (l : list (nat * nat)) (ds : list A) : Prop :=
    NoDup l /\ Forall2 adds l ds /\ (forall a t, a ∈ l -> clears t -> past t -> ~ bef a t) /\
    (forall i j a b, l !! i = Some a -> l !! j = Some b -> bef a b -> i < j).

  (** What call [a] may see: a base [v] and the amounts [es] of the calls [l].  These began before [a] was over;
      nothing that was over before [a] began took them away; and a call that was over before [a] began and is
      not among them was undone, by a call that began before [a] was over. *)
  Definition may_see (begun : nat * nat -> Prop) (a : nat * nat) (v : value) (l : list (nat * nat)) (es : list A) : Prop :=
    base_of (fun b => begun b /\ ~ bef a b) (fun t => bef t a) v /\ added_up (fun t => bef t a) l es /\
    (forall b, b ∈ l -> begun b /\ ~ bef a b) /\
    (forall b d, adds b d -> bef b a -> b ∉ l -> exists w, may_wipe begun b w /\ ~ bef a w).

  (** [now], what is at the key, is made of [base] and the amounts [ds] of the calls [out], each once and one after
      the other; or nothing is at the key.  [begun a]: [a] has begun; [over a]: it has returned; [says a v]: it was
      told [v]; [reads a]: it gets what is at the key; [none a]: it was told that nothing is there.
      - A call in [out] that has returned was told what it and those before it make.
      - Every call that adds and has returned was told what some calls make, each once, itself last.
      - One that is not in [out] was undone.
      - Every call that gets the key and has returned was told what some calls make, each once, or that nothing is
        there. *)
  Definition counted_once (sum : value -> list A -> value) (begun over : nat * nat -> Prop)
    (says : nat * nat -> value -> Prop) (reads none : nat * nat -> Prop) (now : option value)
    (base : value) (out : list (nat * nat)) (ds : list A) : Prop :=
    base_of begun over base /\ added_up over out ds /\
    (now = Some (sum base ds) \/
     (now = None /\ out = [] /\
      ((first = None /\ forall a d, adds a d -> ~ over a) \/
       exists t, may_clear t /\ begun t /\ forall a d, adds a d -> bef t a -> ~ over a))) /\
    (forall i a, out !! i = Some a -> over a -> says a (sum base (take (S i) ds))) /\
    (forall a d, adds a d -> over a -> exists v l es, may_see begun a v (l ++ [a]) es /\ says a (sum v es)) /\
    (forall a d, adds a d -> over a -> a ∉ out -> exists b, may_wipe begun a b) /\
    (forall a, reads a -> over a ->
       (exists v l es, may_see begun a v l es /\ says a (sum v es)) \/ (found_nothing begun a /\ none a)).
End once.

(** Call [b] sets the key to [v]; deletes it; renames it to another name; gets it, without a type or as [t].  Call
    [a] was told that nothing is there.  It has begun. *)
Definition puts_there (scripts : list (list call)) (k : bytes) (b : nat * nat) (v : value) : Prop :=
  exists c, call_at scripts b = Some c /\ sets_to k c v.
Definition dels_there (scripts : list (list call)) (k : bytes) (b : nat * nat) : Prop :=
  exists c, call_at scripts b = Some c /\ deletes c k.
Definition sends_there (scripts : list (list call)) (k : bytes) (b : nat * nat) : Prop :=
  exists c j, call_at scripts b = Some c /\ sent_to k j c /\ j <> k.
Definition reads_there (scripts : list (list call)) (k : bytes) (t : key_type) (b : nat * nat) : Prop :=
  exists c, call_at scripts b = Some c /\ gets c k t.
Definition told_none (scripts : list (list call)) (x : system) (a : nat * nat) : Prop :=
  exists c, call_at scripts a = Some c /\ returned x a (CErr EKeyNonexistent (c_res c)).
Definition ltold_none (scripts : list (list call)) (x : lsystem) (a : nat * nat) : Prop :=
  exists c, call_at scripts a = Some c /\ lreturned x a (CErr EKeyNonexistent (c_res c)).
Definition has_begun (x : system) (a : nat * nat) : Prop := ~ not_begun x a.
Definition lhas_begun (x : lsystem) (a : nat * nat) : Prop := ~ lnot_begun x a.
