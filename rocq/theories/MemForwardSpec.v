(** What tasks that share a memory client see of a key that only grows (C118). *)
From Verif Require Import Bytes Value CommandId ClientSpec MemAppendSpec.
From stdpp Require Import list.
From Coq Require Import ZArith.

(** The call gets what is at [k]; the call adds [d] to it. *)
Definition reads_key (c : client_call) (k : bytes) (t : key_type) : Prop := c = KGet k \/ c = KGetTyped k t.
Definition adds_amount (c : client_call) (k : bytes) (d : Z) : Prop :=
  ((c = KIncrement k None \/ c = KIncrement k (Some KTInteger) \/ c = KIncrementInt k None) /\ d = 1%Z) \/
  c = KIncrementBy k (VInteger d) \/ c = KIncrementInt k (Some d).

(** The call gets the counter, or adds [d] to it. *)
Definition counter_use (c : client_call) (k : bytes) (d : Z) : Prop :=
  (reads_key c k KTInteger /\ d = 0%Z) \/ adds_amount c k d.

(** The call gets the value, or appends to it.  [w] is [u] with what the call appends behind it: a call that
    gets the value appends nothing. *)
Definition log_user (c : client_call) (k : bytes) (t : key_type) : Prop :=
  reads_key c k t \/ exists v, appends_value c k v.
Definition log_use (c : client_call) (k : bytes) (t : key_type) (u w : value) : Prop :=
  (reads_key c k t /\ w = u) \/ exists v, appends_value c k v /\ joined u v = Some w.
