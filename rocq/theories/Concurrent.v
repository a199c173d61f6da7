(** Several clients of one engine at the same time.

    [Hop] is cloned and shared between tasks (engine/src/hop.rs:147-166,
    server/src/main.rs:60-80): each runs [Hop::dispatch] on the same [Arc].  The
    atomic steps are those of [Prog]; a schedule says which client moves next. *)
From Verif Require Import Bytes Prog.
From stdpp Require Import list.

(** The running commands and the shared state;
    clones of one [Hop], engine/src/hop.rs:148-149, calling [dispatch], engine/src/hop.rs:170. *)
Definition pool : Type := list prog * store.

(** A step of client [i]; [None] when it has returned; engine/src/hop.rs:170-197. *)
Definition pool_step (i : nat) (x : pool) : option pool :=
  match x.1 !! i with
  | None => None
  | Some p =>
    match pstep p x.2 with
    | Some (p', s) => Some (<[i := p']> x.1, s)
    | None => None
    end
  end.

(** A schedule; it never picks a client that has returned; engine/src/hop.rs:170-197. *)
Fixpoint pool_run (sched : list nat) (x : pool) : option pool :=
  match sched with
  | [] => Some x
  | i :: r => match pool_step i x with Some x => pool_run r x | None => None end
  end.
