(** What a command says of itself before it is run: how many keys and how many arguments it takes
    (C109). *)
From Verif Require Import Bytes Value CommandId Request RequestSpec Prog Commands HistorySpec.
From stdpp Require Import gmap list.
From Coq Require Import NArith ZArith.

(** The numbers that the notations name; [None] is "any number". *)
Definition keys_named (n : key_notation) : option nat :=
  match n with KNNone => Some 0 | KNOne => Some 1 | KNTwo => Some 2 | KNMultiple => None end.
Definition arguments_named (n : argument_notation) : option nat :=
  match n with ANNone => Some 0 | ANOne => Some 1 | ANMultiple => None end.

(** The command declares a position [i], counted from 0, keys first. *)
Definition declares (c : command_id) (i : nat) : Prop :=
  match keys_named (key_notation_of c), arguments_named (argument_notation_of c) with
  | Some n, Some m => i < n + m
  | _, _ => True
  end.

(** What stands at position [i] of a request can make a difference: there are two requests of at
    most 255 positions that differ in nothing else, and a state in which one has another answer or
    another effect than the other. *)
Definition matters (c : command_id) (i : nat) : Prop :=
  exists e s kt p x y q r1 r2 res,
    env_ok e /\ room s /\ length p = i /\ (lenN (p ++ x :: q) <= 255)%N /\
    asks r1 c kt (p ++ x :: q) /\ asks r2 c kt (p ++ y :: q) /\
    dispatch e s r1 res <> dispatch e s r2 res.

(** A request that leaves out something declared. *)
Definition leaves_out (c : command_id) (l : list bytes) : Prop :=
  exists i, length l <= i /\
    match keys_named (key_notation_of c), arguments_named (argument_notation_of c) with
    | Some n, Some m => i < n + m
    | _, _ => i = 0
    end.
