(** Vocabulary for sessions added from several clones at once (C48). *)
From Verif Require Import Bytes Session LibSpec.
From stdpp Require Import list.

(** How far an addition is: it has begun; it has put its session into the table; it has done so but
    has not yet stored the next id; it has returned or panicked. *)
Definition begun (a : add_state) : Prop := match a with AStart _ => False | _ => True end.
Definition has_session (a : add_state) : bool :=
  match a with
  | AInserted _ | ACounted _ | AReload _ _ | AStored _ | ADone _ => true
  | _ => false
  end.
Definition midway (a : add_state) : bool :=
  match a with AInserted _ | ACounted _ | AReload _ _ => true | _ => false end.
Definition add_ended (a : add_state) : bool :=
  match a with ADone _ | APanicked => true | _ => false end.

(** The number of sessions added so far. *)
Definition number_added (l : list add_state) : nat :=
  length (filter (fun a => has_session a = true) l).

(** The ids returned, in the order of the additions, and the numbers below [n]. *)
Definition id_returned (a : add_state) : option N :=
  match a with ADone id => Some id | _ => None end.
Definition ids_returned (l : list add_state) : list N := omap id_returned l.
Definition below (n : nat) : list N := map N.of_nat (seq 0 n).

(** At some moment of the run, addition [i] was going on while another was midway. *)
Definition overlapped (dbg : bool) (tokens : list bytes) (sched : list nat) (i : nat) : Prop :=
  exists before l g a j b,
    before `prefix_of` sched /\ adds_run dbg before (adds_start tokens) = Some (l, g) /\
    l !! i = Some a /\ begun a /\ add_ended a = false /\
    i <> j /\ l !! j = Some b /\ midway b = true.
