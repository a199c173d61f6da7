(** Properties of the engine as one object: C80 - C82.
    The engine is [Hop], the vocabulary is in [HopSpec]. *)
From Coq Require Import String.
From Verif Require Import Bytes BytesFacts Value CommandId Metrics Prog Commands Session PubSub Request
  EngineSpec WireSpec Response HistorySpec Hop HopSpec HopFacts.
From stdpp Require Import gmap list.
From Coq Require Import NArith ZArith.

Definition rel : env := env_std false.
Definition set_n (z : Z) : hop_call :=
  HDispatch rel (a_request CSet (Some KTInteger) [lit "n"; i64_enc z]) [].
Definition delete_n : hop_call := HDispatch rel (a_request CDelete None [lit "n"]) [].
Definition get_missing : hop_call := HDispatch rel (a_request CGet None [lit "m"]) [].

(** C80, the part that holds: whatever is called, the engine reports the settings it was built with, each the
    last one chosen or the documented default. *)
Theorem C80_kept_partial :
  forall l cs,
  call_result l cs HConfig = HRConfig (Config (chosen_pubsub l) (chosen_max l)).
Proof. exact c80_kept. Qed.
Print Assumptions C80_kept_partial.

(** C80 is false: the settings have no effect on anything else.  With subscriptions disabled and no
    session allowed, both are made. *)
Theorem C80_refuted :
  (forall l1 l2 cs, HConfig ∉ cs -> hop_results l1 cs = hop_results l2 cs) /\
  hop_results [SetPubsub false; SetSessionsMax 0] [HAddSession true (lit "t"); HSubscribe (lit "n") 0] =
  [HRSession (Some 0%N); HRSubscription (Some 0%N)].
Proof. split; [exact c80_no_effect|]. vm_compute. reflexivity. Qed.
Print Assumptions C80_refuted.

Example C80_nonvacuous :
  hop_results [SetSessionsMax 7; SetPubsub true; SetSessionsMax 150]
    [set_n 1; HConfig; HAddSession true (lit "t"); HConfig] =
  [HRDispatch (COk (resp_frame rel (RValue (VInteger 1)))); HRConfig (Config true 150);
   HRSession (Some 0%N); HRConfig (Config true 150)].
Proof. vm_compute. reflexivity. Qed.

(** C81 is false: what the subscription calls return, and which subscriptions there are, is the same
    whatever commands are executed and sessions added or dropped in between.  So no subscriber can
    learn that its key was set or deleted, and dropping a session leaves its subscriptions. *)
Theorem C81_refuted :
  (forall l1 l2 cs1 cs2,
   List.filter about_subscriptions cs1 = List.filter about_subscriptions cs2 ->
   results_of about_subscriptions cs1 (hop_results l1 cs1) =
   results_of about_subscriptions cs2 (hop_results l2 cs2) /\
   h_pubsub (hop_after l1 cs1) = h_pubsub (hop_after l2 cs2)) /\
  hop_results [] [HAddSession true (lit "t"); HSubscribe (lit "n") 0; set_n 1; set_n 2; delete_n;
                  HDropSession 0; HSubscription (lit "n") 0] =
  [HRSession (Some 0%N); HRSubscription (Some 0%N);
   HRDispatch (COk (resp_frame rel (RValue (VInteger 1))));
   HRDispatch (COk (resp_frame rel (RValue (VInteger 2))));
   HRDispatch (COk (resp_frame rel (RValue (VBytes (lit "n"))))); HRBool true; HRSubscription (Some 0%N)].
Proof. split; [exact c81_blind|]. vm_compute. reflexivity. Qed.
Print Assumptions C81_refuted.

(** C81, what holds of the two parts: commands, session calls and metrics return the same as if no
    subscription call had been made. *)
Theorem C81_commands_undisturbed_partial :
  forall l cs,
  let rest := List.filter (fun c => negb (about_subscriptions c)) cs in
  results_of (fun c => negb (about_subscriptions c)) cs (hop_results l cs) = hop_results l rest.
Proof. exact c81_silent. Qed.
Print Assumptions C81_commands_undisturbed_partial.

Example C81_nonvacuous :
  let cs := [HSubscribe (lit "n") 3; set_n 1; HUnsubscribe (lit "n") 3; HKeyType (lit "n")] in
  List.filter (fun c => negb (about_subscriptions c)) cs = [set_n 1; HKeyType (lit "n")] /\
  results_of (fun c => negb (about_subscriptions c)) cs (hop_results [] cs) =
  [HRDispatch (COk (resp_frame rel (RValue (VInteger 1)))); HRKeyType (Some KTInteger)].
Proof. split; vm_compute; reflexivity. Qed.

(** C82, the part that holds: whatever is called in between, the counters are exactly the numbers of
    commands that succeeded, commands that failed, and sessions added.  Missing: sessions ended. *)
Theorem C82_counters_partial :
  forall l cs m,
  (lenN cs < 2 ^ 63)%N ->
  let n := tally_of m (hop_results l cs) in
  call_result l cs (HCounter m) = HRCounter (if (n =? 0)%N then None else Some n).
Proof. exact c82_counters. Qed.
Print Assumptions C82_counters_partial.

(** C82 is false: a session that ends is not counted, ever. *)
Theorem C82_refuted :
  (forall l cs, (lenN cs < 2 ^ 63)%N -> call_result l cs (HCounter MSessionsEnded) = HRCounter None) /\
  hop_results [] [HAddSession true (lit "t"); HDropSession 0; HCounter MSessionsStarted; HCounter MSessionsEnded] =
  [HRSession (Some 0%N); HRBool true; HRCounter (Some 1%N); HRCounter None].
Proof. split; [exact c82_never_ended|]. vm_compute. reflexivity. Qed.
Print Assumptions C82_refuted.

Example C82_nonvacuous :
  let cs := [set_n 1; get_missing; HInsert (lit "m") (VBoolean true); HAddSession false (lit "t");
             HSubscribe (lit "n") 0; set_n 2] in
  (lenN cs < 2 ^ 63)%N /\
  map (fun m => tally_of m (hop_results [] cs)) [MCommandsSuccessful; MCommandsErrored; MSessionsStarted]
  = [2; 1; 1]%N.
Proof. vm_compute. split; reflexivity. Qed.
