(** Clients of one engine that issue several commands, each one after the other.

    Tasks share one [Hop] and call [Hop::dispatch] again and again
    (server/src/main.rs:66-68, 91-117; client/src/backend/memory.rs:95-98).  Steps and schedules
    are those of [Concurrent], with a step for the call and one for the return. *)
From Verif Require Import Bytes Value Prog Commands HistorySpec.
From stdpp Require Import list.

(** A client: the outcomes so far, the running command, the calls it has still to make;
    server/src/main.rs:91-117.  Simplification: a client whose command panicked goes on. *)
Record client := Client {
  cl_done : list cres;
  cl_now : option prog;
  cl_todo : list call
}.

(** The clients and the shared state; engine/src/hop.rs:147-150. *)
Definition system : Type := list client * store.

(** A step of a client: it calls [dispatch], makes a step in it, or returns from it;
    engine/src/hop.rs:170-197, server/src/main.rs:98. *)
Definition client_step (x : client) (s : store) : option (client * store) :=
  match cl_now x with
  | None =>
    match cl_todo x with
    | [] => None
    | c :: r => Some (Client (cl_done x) (Some (dispatch_prog (c_env c) (c_req c) (c_res c))) r, s)
    end
  | Some (PRet r) => Some (Client (cl_done x ++ [r]) None (cl_todo x), s)
  | Some p =>
    match pstep p s with
    | Some (p', s') => Some (Client (cl_done x) (Some p') (cl_todo x), s')
    | None => None
    end
  end.

(** A step of client [i]; engine/src/hop.rs:170-197. *)
Definition sys_step (i : nat) (x : system) : option system :=
  match x.1 !! i with
  | None => None
  | Some cl =>
    match client_step cl x.2 with
    | Some (cl', s) => Some (<[i := cl']> x.1, s)
    | None => None
    end
  end.

(** A schedule; engine/src/hop.rs:170-197. *)
Fixpoint sys_run (sched : list nat) (x : system) : option system :=
  match sched with
  | [] => Some x
  | i :: r => match sys_step i x with Some x => sys_run r x | None => None end
  end.

(** Clients with these calls ahead of them; server/src/main.rs:66-68. *)
Definition begin (scripts : list (list call)) (s : store) : system :=
  (map (fun h => Client [] None h) scripts, s).
