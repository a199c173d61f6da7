(** Vocabulary for statements about calls that share one connection (C83). *)
From Verif Require Import Bytes Value RespContext Metrics Prog Client Wire.
From stdpp Require Import list.

(** The call was cut off: its future was dropped, or writing its request failed. *)
Definition cut_off (c : wire_call) : Prop :=
  c = WDropped \/ c = WReturned (RErr CEWritingMessage).

(** The call got its answer or was dropped. *)
Definition is_over (c : wire_call) : Prop := match c with WReturned _ | WDropped => True | _ => False end.

(** Events that leave calls alone: nothing is dropped and nothing fails. *)
Definition smooth (ev : wire_event) : Prop := match ev with WFail _ | WDrop _ => False | _ => True end.

(** [w] is what is sent by calls that are served one after the other: the whole requests of the calls
    [order], each once, and then [part]. *)
Definition in_turn (reqs : list bytes) (order : list nat) (part w : bytes) : Prop :=
  NoDup order /\ exists whole, mapM (fun i => reqs !! i) order = Some whole /\ w = concat whole ++ part.
