(** Vocabulary for statements about the server process (C78, C79). *)
From Coq Require Import String.
From Verif Require Import Bytes Value CommandId Request Metrics Prog Commands CliSpec Server
  ServerSpec Process.
From stdpp Require Import list.
From Coq Require Import NArith ZArith.

(** The text [w] is the port number [n]: decimal digits, perhaps after a plus sign. *)
Definition port_number (w : bytes) (n : Z) : Prop :=
  exists ds, digits ds n /\ ds <> [] /\ (w = ds \/ w = (lit "+"%string ++ ds)%list) /\ (n < 65536)%Z.

(** The process after these events. *)
Definition process_after (e : env) (evs : list process_event) (x : process) : Prop :=
  process_run e evs process_new = Some x.

(** A new connection can be made. *)
Definition accepts (e : env) (x : process) : Prop := is_Some (process_step e x PAccept).

(** What happened on the connections. *)
Definition on_connections (evs : list process_event) : list event :=
  omap (fun ev => match ev with PAccept => Some EConnect | PTask ev => Some ev | _ => None end) evs.
