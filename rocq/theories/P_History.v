(** Properties of histories: C32, C33, C36.
    The specification is [EngineSpec]; the vocabulary is in [HistorySpec]. *)
From Coq Require Import String.
From Verif Require Import Bytes BytesFacts Utf8 Float64 Value CommandId
  Request Response RespContext Metrics Session Prog Commands EngineSpec WireSpec RequestSpec
  HistorySpec EngineProps HistoryFacts.
From stdpp Require Import gmap list.
From Coq Require Import NArith ZArith.

Ltac asked := apply a_request_asks; [reflexivity|vm_compute; discriminate|vm_compute; reflexivity].

(** The history of the examples: a counter, an overwritten key, a rename, an error. *)
Definition example_args : list (command_id * option key_type * list bytes) := [
  (CIncrement, None, [lit "n"]); (CIncrementBy, None, [lit "n"; i64_enc 41]);
  (CSet, Some KTString, [lit "s"; lit "old"]); (CSet, Some KTList, [lit "s"; lit "a"; lit "b"]);
  (CRename, None, [lit "s"; lit "t"]); (CGet, None, [lit "s"]);
  (CGet, None, [lit "__hop__:x"]); (CAppend, None, [lit "t"; lit "c"])].

Definition example_history : list call :=
  map (fun '(c, kt, l) => Call (env_std true) (a_request c kt l) []) example_args.

(** C32: any history of any builds and iteration orders, provided that the answers of calls to a
    debug build fit the response format (it panics on the others). *)
Theorem C32_refinement :
  forall h args,
  Forall2 (fun c l => env_ok (c_env c) /\ carries (c_req c) l) h args ->
  (lenN h < 2 ^ 63)%N ->
  let engine := run_calls h store_new in
  let spec := spec_calls h args sstate_new in
  Forall2 (fun c a => debug (c_env c) = true -> ~ too_large a) h spec.2 ->
  st_keys engine.1 = sp_keys spec.1 /\
  Forall3 (fun c a r => answered (c_env c) (c_res c) a r) h spec.2 engine.2.
Proof. exact c32. Qed.
Print Assumptions C32_refinement.

(** C32 for release builds, without that condition. *)
Theorem C32_refinement_release :
  forall h args,
  Forall2 (fun c l => env_ok (c_env c) /\ carries (c_req c) l) h args ->
  (lenN h < 2 ^ 63)%N -> Forall (fun c => debug (c_env c) = false) h ->
  let engine := run_calls h store_new in
  let spec := spec_calls h args sstate_new in
  st_keys engine.1 = sp_keys spec.1 /\
  Forall3 (fun c a r => answered (c_env c) (c_res c) a r) h spec.2 engine.2.
Proof. exact c32_release. Qed.
Print Assumptions C32_refinement_release.

Example C32_nonvacuous :
  Forall2 (fun c l => env_ok (c_env c) /\ carries (c_req c) l) example_history example_args.*2 /\
  Forall2 (fun c a => debug (c_env c) = true -> ~ too_large a) example_history
    (spec_calls example_history example_args.*2 sstate_new).2 /\
  (spec_calls example_history example_args.*2 sstate_new).2
  = [AVal (VInteger 1); AVal (VInteger 42); AVal (VString (lit "old"));
     AVal (VList [lit "a"; lit "b"]); AVal (VBytes (lit "t")); AErr EKeyNonexistent; ACrash;
     AVal (VList [lit "a"; lit "b"; lit "c"])] /\
  map decoded (run_calls example_history store_new).2
  = [Some (PConcluded (RValue (VInteger 1))); Some (PConcluded (RValue (VInteger 42)));
     Some (PConcluded (RValue (VString (lit "old"))));
     Some (PConcluded (RValue (VList [lit "a"; lit "b"])));
     Some (PConcluded (RValue (VBytes (lit "t")))); None; None;
     Some (PConcluded (RValue (VList [lit "a"; lit "b"; lit "c"])))].
Proof.
  split_and!; [| |vm_compute; reflexivity..].
  - unfold example_history, example_args. cbn [map fmap list_fmap snd].
    repeat (apply Forall2_cons; split; [split; [apply env_std_ok|]; cbn [c_req];
      match goal with |- carries (a_request ?c ?kt ?l) _ =>
        let H := fresh in assert (H : asks (a_request c kt l) c kt l) by asked; apply H
      end|]).
    constructor.
  - replace (spec_calls _ _ _).2 with [AVal (VInteger 1); AVal (VInteger 42);
      AVal (VString (lit "old")); AVal (VList [lit "a"; lit "b"]); AVal (VBytes (lit "t"));
      AErr EKeyNonexistent; ACrash; AVal (VList [lit "a"; lit "b"; lit "c"])]
      by (vm_compute; reflexivity).
    repeat constructor; intros _; cbn; try tauto; intros H; apply H; vm_compute; done.
Qed.

(** C33: whatever requests are dispatched (well formed or not) and sessions started, the stored
    values are well typed. *)
Theorem C33_stored :
  forall dbg h,
  well_typed (st_keys (run_events dbg h store_new sessions_new).1.1).
Proof. exact c33_stored. Qed.
Print Assumptions C33_stored.

(** C33: the values answered are well typed; the only exception of the model is a Length of 2^63 or
    more, which no machine can hold. *)
Theorem C33_answers :
  forall e s req res l b,
  env_ok e -> room s -> carries req l -> well_typed (st_keys s) ->
  (dispatch e s req res).2 = COk b ->
  exists v, responds e res v (COk b) /\
    (value_wf v \/ (r_command req = CLength /\ exists n, v = VInteger (Z.of_N n) /\ (2 ^ 63 <= n)%N)).
Proof. exact c33_answers. Qed.
Print Assumptions C33_answers.

Example C33_nonvacuous :
  lookup (lit "n") (st_keys (run_events true (map EvCall example_history) store_new sessions_new).1.1)
  = Some (VInteger 42).
Proof. vm_compute. reflexivity. Qed.

(** C36: after any history of requests and sessions (shorter than 2^63), Stats answers the exact
    counts. *)
Theorem C36_statistics :
  forall dbg h e req res l,
  (lenN h < 2 ^ 63)%N -> env_ok e -> asks req CStats None l ->
  let '(s, _, rs) := run_events dbg h store_new sessions_new in
  exists m, responds e res (VMap m) (dispatch e s req res).2 /\
    stats_are m (how_many ok_result rs) (how_many err_result rs) (how_many session_result rs).
Proof. exact c36. Qed.
Print Assumptions C36_statistics.

Example C36_nonvacuous :
  let '(s, m, rs) := run_events true
    (EvSessionAdd [] :: map EvCall example_history ++ [EvSessionRemove 0; EvSessionAdd []])
    store_new sessions_new in
  how_many ok_result rs = 6%N /\ how_many err_result rs = 1%N /\ how_many session_result rs = 2%N.
Proof. vm_compute. split_and!; reflexivity. Qed.

(** A request for the statistics. *)
Example C36_request : asks (a_request CStats None []) CStats None [].
Proof.
  split; [done|]. split; [done|]. split; [vm_compute; reflexivity|]. intros i.
  unfold arg. change (r_positions (a_request CStats None [])) with (@nil N). unfold get_at.
  destruct (i <? lenN [])%N; by rewrite ?lookup_nil.
Qed.
