(** Vocabulary for statements about clients and a server together (C110). *)
From Verif Require Import Bytes Server System.
From stdpp Require Import list.
From Coq Require Import NArith.

(** Client [i] has closed its connection. *)
Definition hung_up (i : nat) (evs : list system_event) : bool :=
  existsb (fun ev => match ev with YEnd j => bool_decide (j = i) | _ => false end) evs.
