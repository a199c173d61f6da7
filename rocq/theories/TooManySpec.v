(** Vocabulary for client calls with more arguments than a request holds (C108). *)
From Verif Require Import Bytes Value Request Client ClientSpec.
From stdpp Require Import gmap list.
From Coq Require Import NArith.

(** The number of items of a value, entries of a map counted once. *)
Definition item_count (v : value) : N :=
  match v with
  | VList l => lenN l
  | VMap m => N.of_nat (size m)
  | VSet s => N.of_nat (size s)
  | _ => 0
  end.

(** Calls that report too many arguments instead of panicking. *)
Definition reports (c : client_call) : bool :=
  match c with
  | KSet _ v | KSetTyped _ v => (item_count v mod 256 =? 255)%N
  | _ => false
  end.

(** Calls with one argument too many that a release build lets through. *)
Definition slips_through (e : env) (c : client_call) : bool :=
  negb (debug e) && (sends c =? 256)%N
  && match c with KSet _ _ | KSetTyped _ _ => false | _ => true end.
