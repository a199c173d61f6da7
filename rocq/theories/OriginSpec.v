(** Where stored and answered data comes from (C112). *)
From Verif Require Import Bytes Value CommandId Request Metrics Prog Commands HistorySpec Scripts LinSpec.
From stdpp Require Import gmap list.
From Coq Require Import NArith.

(** The words in a value. *)
Definition in_value (v : value) (w : bytes) : Prop :=
  match v with
  | VBytes b | VString b => w = b
  | VList l => w ∈ l
  | VMap m => exists k x, m !! k = Some x /\ (w = k \/ w = x)
  | VSet s => w ∈ s
  | VBoolean _ | VFloat _ | VInteger _ => False
  end.

(** A value made of given words: bytes and strings are words put together, the items of lists and sets and
    the keys and values of maps are words. *)
Definition made_of (W : bytes -> Prop) (v : value) : Prop :=
  match v with
  | VBytes b | VString b => exists ws, Forall W ws /\ b = concat ws
  | VList l => Forall W l
  | VMap m => forall k x, m !! k = Some x -> W k /\ W x
  | VSet s => forall x, x ∈ s -> W x
  | VBoolean _ | VFloat _ | VInteger _ => True
  end.

(** A request that says it is about a boolean or a number. *)
Definition about_scalar (req : request) : Prop :=
  r_key_type req = Some KTBoolean \/ r_key_type req = Some KTFloat \/ r_key_type req = Some KTInteger.

(** A client sends the word to be set at, or appended to, the key. *)
Definition gives (scripts : list (list call)) (k w : bytes) : Prop :=
  exists c i, issued scripts c /\ (r_command (c_req c) = CSet \/ r_command (c_req c) = CAppend) /\
    ~ about_scalar (c_req c) /\ arg (c_req c) 0 = Some k /\ (1 <= i)%N /\ arg (c_req c) i = Some w.

(** A client asks to rename the key [a] to [b]. *)
Definition renames (scripts : list (list call)) (a b : bytes) : Prop :=
  exists c, issued scripts c /\ r_command (c_req c) = CRename /\
    arg (c_req c) 0 = Some a /\ arg (c_req c) 1 = Some b.

(** The words that may get to a key: they were there, they are sent for it, or they may get to a key that is
    renamed to it. *)
Inductive origin (scripts : list (list call)) (s0 : store) : bytes -> bytes -> Prop :=
| origin_stored k v w : st_keys s0 !! k = Some v -> in_value v w -> origin scripts s0 k w
| origin_given k w : gives scripts k w -> origin scripts s0 k w
| origin_renamed a b w : renames scripts a b -> origin scripts s0 a w -> origin scripts s0 b w.

(** The words that may be in an answer: those of the request, or those that may get to its key. *)
Definition may_answer (scripts : list (list call)) (s0 : store) (c : call) (w : bytes) : Prop :=
  match r_command (c_req c) with
  | CEcho | CDelete | CRename => exists i, arg (c_req c) i = Some w
  | CAppend | CGet | CKeys | CSet => exists k, arg (c_req c) 0 = Some k /\ origin scripts s0 k w
  | _ => False
  end.
