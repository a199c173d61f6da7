(** What the texts of errors are good for (C101). *)
From Verif Require Import Bytes Value CommandId Request Metrics Prog Commands Client Cli.
From stdpp Require Import list.
From Coq Require Import NArith.

(** The part of the line an error is about. *)
Definition blamed (err : line_error) : option bytes :=
  match err with
  | LEArgumentInvalid w _ | LEInvalidCommandType w | LEMapIncomplete w => Some w
  | _ => None
  end.

(** [w] stands somewhere in [s]. *)
Definition occurs (w s : bytes) : Prop := exists p q, s = p ++ w ++ q.

(** The numbers of key types in errors are bytes. *)
Definition number_fits (err : client_error) : Prop :=
  match err with CEKeyTypeInvalid n => (n < 256)%N | _ => True end.

(** The same error, but for the value that could not be sent. *)
Definition alike (a b : client_error) : Prop :=
  match a, b with
  | CEKeyTypeUnsupported t _, CEKeyTypeUnsupported u _ => t = u
  | _, _ => a = b
  end.
