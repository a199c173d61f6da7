(** Clients that set the same key at the same time (C114). *)
From Verif Require Import Bytes Value CommandId Request Metrics Prog Commands EngineSpec WireSpec RequestSpec
  HistorySpec ConcSpec Scripts LinSpec KeyLinSpec.
From stdpp Require Import gmap list.
From Coq Require Import NArith ZArith.

(** The call is a Set of the key, with or without a type, whatever its arguments. *)
Definition set_of (k : bytes) (c : call) : Prop := exists kt l, asks (c_req c) CSet kt (k :: l).

(** Its arguments spell the value; a Set without a type may spell one value of each type. *)
Definition spelt (k : bytes) (c : call) (v : value) : Prop :=
  exists kt l t, asks (c_req c) CSet kt (k :: l) /\ (kt = None \/ kt = Some t) /\ value_of t l = Some v.

(** Nothing but Sets may change the key. *)
Definition only_set (k : bytes) (scripts : list (list call)) : Prop :=
  forall c, issued scripts c -> may_write (c_req c) k -> set_of k c.

(** What may be at the key in between: what was there, nothing, or for some Set its value or the empty value
    of that type. *)
Definition may_hold (k : bytes) (scripts : list (list call)) (s0 : store) (o : option value) : Prop :=
  o = st_keys s0 !! k \/ o = None \/
  exists c v, issued scripts c /\ spelt k c v /\ (o = Some v \/ o = Some (blank (kind v))).

(** Every iteration order is one of the entries. *)
Definition envs_ok (scripts : list (list call)) : Prop := forall c, issued scripts c -> env_ok (c_env c).
