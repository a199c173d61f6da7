(** Vocabulary for C91: how often one client has to move. *)
From Verif Require Import Bytes Value CommandId Request Prog Commands HistorySpec ConcSpec.
From stdpp Require Import list.

(** The steps of client [i] in a schedule. *)
Definition moves (i : nat) (sched : list nat) : nat := length (filter (eq i) sched).

(** Commands that may create the value they then change: they look for the key, make it if it is
    missing, and look again. *)
Definition looks_again (c : command_id) : bool :=
  match c with
  | CSet | CAppend | CIncrement | CIncrementBy | CDecrement | CDecrementBy => true
  | _ => false
  end.

(** Commands that take a key away. *)
Definition takes_away (c : command_id) : bool :=
  match c with CDelete | CRename | CSet => true | _ => false end.
