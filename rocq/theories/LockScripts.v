(** Clients that issue one command after another, with the locks of the store.

    As [Scripts], over the threads of [Locks]: tasks share one [Hop] and call [Hop::dispatch] again
    and again (server/src/main.rs:66-68, 91-117; client/src/backend/memory.rs:95-98). *)
From Verif Require Import Bytes Value Metrics Prog Commands HistorySpec Locks.
From stdpp Require Import gmap list.
From Coq Require Import NArith.

(** A client: the outcomes so far, the running command, the calls it has still to make;
    server/src/main.rs:91-117.  Simplification: a client whose command panicked goes on. *)
Record lclient := LClient {
  lc_done : list cres;
  lc_now : option lthread;
  lc_todo : list call
}.

(** The thread of the client in the store; one between commands has no lock;
    server/src/main.rs:91-117. *)
Definition lc_thread (x : lclient) : lthread :=
  match lc_now x with Some t => t | None => TIdle (PRet CPanic) end.

(** The clients and the shared state; engine/src/hop.rs:147-150. *)
Definition lsystem : Type := list lclient * store.

(** A step of client [i]: it calls [dispatch], makes a step in it if it need not wait for a lock, or
    returns from it; engine/src/hop.rs:170-197, server/src/main.rs:98. *)
Definition lsys_step (sh : shards) (i : nat) (mid : list value) (x : lsystem) : option lsystem :=
  match x.1 !! i with
  | None => None
  | Some cl =>
    match lc_now cl with
    | None =>
      match lc_todo cl with
      | [] => None
      | c :: r =>
        Some (<[i := LClient (lc_done cl)
                       (Some (TIdle (dispatch_prog (c_env c) (c_req c) (c_res c)))) r]> x.1, x.2)
      end
    | Some (TIdle (PRet r)) => Some (<[i := LClient (lc_done cl ++ [r]) None (lc_todo cl)]> x.1, x.2)
    | Some t =>
      if match t with
         | TIdle p =>
           match needs sh p with Some g => free_for sh (map lc_thread x.1) g | None => true end
         | _ => true
         end
      then match lact sh t x.2 mid with
           | Some (t', s) => Some (<[i := LClient (lc_done cl) (Some t') (lc_todo cl)]> x.1, s)
           | None => None
           end
      else None
    end
  end.

(** A schedule: who moves, and how the value changes if an update begins; engine/src/hop.rs:170-197. *)
Fixpoint lsys_run (sh : shards) (sched : list (nat * list value)) (x : lsystem) : option lsystem :=
  match sched with
  | [] => Some x
  | (i, mid) :: r => match lsys_step sh i mid x with Some x => lsys_run sh r x | None => None end
  end.

(** Clients with these calls ahead of them; server/src/main.rs:66-68. *)
Definition lbegin (scripts : list (list call)) (s : store) : lsystem :=
  (map (fun h => LClient [] None h) scripts, s).
