(** What clients see of a key that only grows (C118). *)
From Verif Require Import Bytes Value CommandId Request Metrics Prog Commands EngineSpec WireSpec RequestSpec
  HistorySpec ConcSpec Scripts LinSpec KeyLinSpec.
From stdpp Require Import gmap list.
From Coq Require Import NArith ZArith.

(** The call gets what is at [k], without a type or as [t]. *)
Definition gets (c : call) (k : bytes) (t : key_type) : Prop :=
  exists kt l, asks (c_req c) CGet kt (k :: l) /\ (kt = None \/ kt = Some t).

(** The call gets the counter, or adds [d] to it. *)
Definition counter_call (c : call) (k : bytes) (d : Z) : Prop :=
  (gets c k KTInteger /\ d = 0%Z) \/ adds_int c k d.

(** The call gets the value, or appends [l] to it. *)
Definition log_call (c : call) (k : bytes) (t : key_type) (l : list bytes) : Prop :=
  (gets c k t /\ l = []) \/ appends c k t l.

(** [w] is [v] and possibly something behind it. *)
Definition grown (v w : value) : Prop :=
  match v, w with
  | VBytes a, VBytes b | VString a, VString b => a `prefix_of` b
  | VList a, VList b => a `prefix_of` b
  | _, _ => False
  end.
