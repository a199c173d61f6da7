(** Vocabulary for statements about the engine as one object (C80 - C82). *)
From Verif Require Import Bytes Value Metrics Prog Commands Session PubSub Request Hop.
From stdpp Require Import gmap list.
From Coq Require Import NArith.

(** The engine built with these settings, after these calls; and what they returned. *)
Definition hop_after (l : list setting) (cs : list hop_call) : hop := (hop_run (hop_build l) cs).1.
Definition hop_results (l : list setting) (cs : list hop_call) : list hop_res :=
  (hop_run (hop_build l) cs).2.
Definition call_result (l : list setting) (cs : list hop_call) (c : hop_call) : hop_res :=
  (hop_do (hop_after l cs) c).2.

(** The last choice made, or the documented default. *)
Definition chosen_pubsub (l : list setting) : bool :=
  default true (last (omap (fun s => match s with SetPubsub b => Some b | _ => None end) l)).
Definition chosen_max (l : list setting) : N :=
  default (2 ^ 64 - 1)%N
    (last (omap (fun s => match s with SetSessionsMax n => Some n | _ => None end) l)).

(** Calls about subscriptions. *)
Definition about_subscriptions (c : hop_call) : bool :=
  match c with
  | HSubscription _ _ | HSubscribe _ _ | HUnsubscribe _ _ | HRemoveSession _ => true
  | _ => false
  end.

(** The results of the calls of one sort. *)
Fixpoint results_of (f : hop_call -> bool) (cs : list hop_call) (rs : list hop_res) : list hop_res :=
  match cs, rs with
  | c :: cs, r :: rs => if f c then r :: results_of f cs rs else results_of f cs rs
  | _, _ => []
  end.

(** What a counter counts. *)
Definition counts (m : metric) (r : hop_res) : bool :=
  match m, r with
  | MCommandsSuccessful, HRDispatch (COk _) => true
  | MCommandsErrored, HRDispatch (CErr _ _) => true
  | MSessionsStarted, HRSession (Some _) => true
  | _, _ => false
  end.

Definition tally_of (m : metric) (rs : list hop_res) : N :=
  lenN (List.filter (counts m) rs).
