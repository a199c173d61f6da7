(** What tasks that append to one key through a shared memory client can rely on (C100). *)
From Verif Require Import Bytes Utf8 Value ClientSpec.
From stdpp Require Import list.

(** The call appends [v] to what is at [k]. *)
Definition appends_value (c : client_call) (k : bytes) (v : value) : Prop :=
  c = KAppend k v \/ c = KAppendTyped k v.

(** The values that can be appended to. *)
Definition appendable (v : value) : Prop :=
  match v with VBytes _ | VList _ | VString _ => True | _ => False end.

(** [v] with all of [vs] put behind it, one after the other. *)
Fixpoint joined_all (v : value) (vs : list value) : option value :=
  match vs with
  | [] => Some v
  | w :: vs => match joined v w with Some u => joined_all u vs | None => None end
  end.
