(** Vocabulary for the statements about requests. *)
From Verif Require Import Bytes Value CommandId Request.
From stdpp Require Import gmap list.
From Coq Require Import NArith.

(** A call of a builder method by a user. *)
Inductive builder_call := CallBytes (bs : bytes) | CallValue (v : value).

Definition builder_do (e : env) (b : builder) (c : builder_call) : builder_res :=
  match c with
  | CallBytes bs => builder_bytes e b bs
  | CallValue v => builder_value e b v
  end.

(** A chain of calls [b.bytes(..)?.value(..)?...] that stops at the first
    error. *)
Fixpoint builder_chain (e : env) (b : builder) (l : list builder_call)
  : builder_res :=
  match l with
  | [] => Ok (b, None)
  | c :: r =>
    obind (builder_do e b c) (fun '(b', err) =>
    match err with
    | Some err => Ok (b', Some err)
    | None => builder_chain e b' r
    end)
  end.

(** [yields a l]: repeatedly calling [next] on the iterator [a] gives the items
    of [l] in order and then [None]. *)
Inductive yields : arguments -> list bytes -> Prop :=
| yields_nil a a' : arguments_next a = (None, a') -> yields a []
| yields_cons a x a' l :
    arguments_next a = (Some x, a') -> yields a' l -> yields a (x :: l).

(** The typed accessor for the value's kind reads [v] back from the arguments
    after the first one. *)
Definition reads_back (r : request) (v : value) : Prop :=
  match v with
  | VBoolean x => typed_arg convert_bool r 1 = Some x
  | VBytes bs => typed_arg Some r 1 = Some bs
  | VFloat n => typed_arg convert_f64 r 1 = Some n
  | VInteger z => typed_arg convert_i64 r 1 = Some z
  | VList l => exists a, args_from r 1 = Some a /\ yields a l
  | VMap m => typed_args convert_map r = Some m
  | VSet s => typed_args convert_set r = Some s
  | VString s => typed_arg convert_str r 1 = Some s
  end.

(** Keys and values alternating. *)
Definition flatten_pairs (l : list (bytes * bytes)) : list bytes :=
  concat (map (fun kv => [kv.1; kv.2]) l).

(** The arguments a value is sent as. *)
Definition value_args (e : env) (v : value) : list bytes :=
  match v with
  | VBoolean x => [[n2b (if x then 1 else 0)%N]]
  | VBytes bs => [bs]
  | VFloat n => [be_enc 8 n]
  | VInteger z => [i64_enc z]
  | VList l => l
  | VMap m => flatten_pairs (map_iter e m)
  | VSet s => set_iter e s
  | VString s => [s]
  end.

(** How many arguments a value is sent as. *)
Definition value_arity (v : value) : N :=
  match v with
  | VList l => lenN l
  | VMap m => 2 * N.of_nat (size m)
  | VSet s => N.of_nat (size s)
  | _ => 1
  end.

(** The values documented as rejected with [ValueEmpty]. *)
Definition value_empty (v : value) : bool :=
  match v with
  | VBytes [] | VString [] => true
  | VList l => existsb (fun x => (lenN x =? 0)%N) l
  | VMap m => (size m =? 0)%nat
  | VSet s => (size s =? 0)%nat
  | _ => false
  end.

Definition call_args (e : env) (c : builder_call) : list bytes :=
  match c with
  | CallBytes bs => [bs]
  | CallValue v => value_args e v
  end.

Definition call_arity (c : builder_call) : N :=
  match c with
  | CallBytes _ => 1
  | CallValue v => value_arity v
  end.

Definition call_empty (c : builder_call) : bool :=
  match c with
  | CallBytes bs => (lenN bs =? 0)%N
  | CallValue v => value_empty v
  end.

(** [r] answers, through its accessors, exactly the arguments [l]: the count,
    each argument by index and nothing past the end. *)
Definition carries (r : request) (l : list bytes) : Prop :=
  arg_count r = lenN l /\ forall i, arg r i = l !! N.to_nat i.
