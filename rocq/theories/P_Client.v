(** Properties of the clients: C42 - C44, C66, C67.
    The clients are [Client], the map they should behave as and the limits are in
    [ClientSpec], what they do on all calls in [ClientRealSpec]. *)
From Coq Require Import String.
From Verif Require Import Bytes BytesFacts Value CommandId Float64 Request Response Metrics Prog Commands
  EngineSpec WireSpec RequestSpec HistorySpec EngineProps Server ServerSpec ServerProps Client
  ClientSpec ClientFacts ClientProps ClientRealSpec ClientReal StatsFacts.
From stdpp Require Import gmap list.
From Coq Require Import NArith ZArith.

Definition rel : env := env_std false.
Definition dbg : env := env_std true.
Definition key (x : string) : bytes := lit x.

(** C42 is false: adding a float to a missing key stores an integer, namely the bits of the float.
    Here 1.0 was added and the map would hold 1.0. *)
Theorem C42_refuted :
  let h := [(rel, KIncrementBy (key "x") (VFloat f64_one)); (rel, KGet (key "x"))] in
  (mem_calls h store_new).2
  = [ROk (RpValue (VInteger 4607182418800017408)); ROk (RpValue (VInteger 4607182418800017408))] /\
  (map_calls h ideal_new).2
  = [Returns (RpValue (VFloat f64_one)); Returns (RpValue (VFloat f64_one))].
Proof. vm_compute. split; reflexivity. Qed.
Print Assumptions C42_refuted.

(** C42, C43: in general, a float added to a key that is missing or holds an integer is added as the
    integer with its bits; [increment(k).float().by(x)] does that and then panics. *)
Theorem C42_float_amounts :
  forall e s k x z,
  env_ok e -> room s -> ordinary k -> (x < u64_mod)%N ->
  default (VInteger 0) (st_keys s !! k) = VInteger z -> i64_range (z + i64_of_u64 x) ->
  let sum := VInteger (z + i64_of_u64 x) in
  (mem_call e s (KIncrementBy k (VFloat x))).2 = ROk (RpValue sum) /\
  st_keys (mem_call e s (KIncrementBy k (VFloat x))).1 = <[k := sum]> (st_keys s) /\
  (mem_call e s (KIncrementFloat k (Some x))).2 = RPanic /\
  st_keys (mem_call e s (KIncrementFloat k (Some x))).1 = <[k := sum]> (st_keys s).
Proof. exact float_amount. Qed.
Print Assumptions C42_float_amounts.

(** C42: and a float cannot be added to a key that holds a float. *)
Theorem C42_float_amounts_fail :
  forall e s k x f,
  env_ok e -> room s -> ordinary k -> (x < u64_mod)%N -> st_keys s !! k = Some (VFloat f) ->
  (mem_call e s (KIncrementBy k (VFloat x))).2 = RErr (CERunningCommand EKeyTypeDifferent).
Proof. exact float_amount_fails. Qed.
Print Assumptions C42_float_amounts_fail.

Example C42_float_amounts_nonvacuous :
  let s := store_of [(key "n", VInteger 40); (key "f", VFloat f64_one)] in
  (mem_call rel s (KIncrementBy (key "f") (VFloat f64_one))).2
    = RErr (CERunningCommand EKeyTypeDifferent) /\
  (mem_call rel s (KIncrementFloat (key "n") (Some 1%N))).2 = RPanic /\
  (mem_call rel s (KIncrementBy (key "n") (VFloat 1))).2 = ROk (RpValue (VInteger 41)) /\
  ordinary (key "n").
Proof. vm_compute. split_and!; try reflexivity; [done|]. by intros [r [=]]. Qed.

(** C42: every history of calls on a new memory client, within the limits ([within]) and without
    float amounts, float steps on missing keys and typed reads of other types ([regular]), answers
    what the map answers and leaves the keys it leaves.
    Missing: those calls (see [C42_refuted] and C43). *)
Theorem C42_partial :
  forall h,
  (lenN h < 2 ^ 63)%N -> all_within h ideal_new ->
  let '(s, rs) := mem_calls h store_new in
  let '(i, xs) := map_calls h ideal_new in
  Forall2 meets rs xs /\ st_keys s = i_keys i.
Proof. exact c42_is_a_map. Qed.
Print Assumptions C42_partial.

Definition calls : list client_call :=
  [KSet (key "n") (VInteger 40); KIncrementInt (key "n") (Some 2%Z); KGetTyped (key "n") KTInteger;
   KSet (key "f") (VFloat f64_one); KIncrement (key "f") (Some KTFloat); KGet (key "f");
   KAppend (key "l") (VList [key "a"; key "b"]); KAppendTyped (key "l") (VList [key "c"]);
   KLength (key "l") None; KAppend (key "n") (VString (key "x"));
   KSetTyped (key "m") (VMap {[key "k" := key "v"]}); KKeys (key "m"); KKeyType (key "m");
   KRename (key "m") (key "m2"); KExists [key "m2"; key "n"]; KIs KTMap [key "m2"; key "n"];
   KDelete (key "n"); KDelete (key "n"); KDecrement (key "n") None; KEcho (key "hi");
   KGet []; KDecrementBy (key "n") (VString (key "x")); KStats].
Example C42_nonvacuous :
  all_within (map (fun c => (dbg, c)) calls) ideal_new /\
  (mem_calls (map (fun c => (dbg, c)) calls) store_new).2 =
  [ROk (RpValue (VInteger 40)); ROk (RpValue (VInteger 42)); ROk (RpValue (VInteger 42));
   ROk (RpValue (VFloat f64_one)); ROk (RpValue (VFloat 4611686018427387904));
   ROk (RpValue (VFloat 4611686018427387904));
   ROk (RpValue (VList [key "a"; key "b"])); ROk (RpValue (VList [key "a"; key "b"; key "c"]));
   ROk (RpInt 3); RErr (CERunningCommand EKeyTypeDifferent);
   ROk (RpValue (VMap {[key "k" := key "v"]})); ROk (RpItems [key "k"]); ROk (RpType KTMap);
   ROk (RpBytes (key "m2")); ROk (RpBool true); ROk (RpBool false);
   ROk (RpBytes (key "n")); RErr (CERunningCommand EPreconditionFailed);
   ROk (RpValue (VInteger (-1))); ROk (RpItems [key "hi"]);
   RErr (CEBuildingRequest BEArgumentEmpty);
   RErr (CEKeyTypeUnsupported KTString (Some (VString (key "x"))));
   ROk (RpStats 18 2 0 0)].
Proof.
  split; [|vm_compute; reflexivity]. apply ok_calls_within; [apply env_std_ok|].
  vm_compute. reflexivity.
Qed.

(** C43 is false.  These calls on a memory client panic: reading a key with the wrong type; adding a
    float to a missing key; appending no items to a missing list; any use of a key starting with
    [__hop__:]; storing 256 items; adding past the end of the integers (in a debug build). *)
Theorem C43_refuted :
  let s := store_of [(key "n", VInteger 9223372036854775807)] in
  (mem_call rel s (KGetTyped (key "n") KTString)).2 = RPanic /\
  (mem_call rel s (KIncrementFloat (key "x") None)).2 = RPanic /\
  (mem_call rel s (KAppend (key "x") (VList []))).2 = RPanic /\
  (mem_call rel s (KGet (key "__hop__:x"))).2 = RPanic /\
  (mem_call rel s (KSet (key "x") (VList (replicate 256 (key "i"))))).2 = RPanic /\
  (mem_call dbg s (KIncrementInt (key "n") None)).2 = RPanic.
Proof. vm_compute. split_and!; reflexivity. Qed.
Print Assumptions C43_refuted.

(** C43: every typed read of a key of another type panics. *)
Theorem C43_get_other_kind :
  forall e s k t v,
  env_ok e -> room s -> ordinary k -> st_keys s !! k = Some v -> sound v -> kind v <> t ->
  (mem_call e s (KGetTyped k t)).2 = RPanic.
Proof. exact c43_get_other_kind. Qed.
Print Assumptions C43_get_other_kind.

Example C43_get_other_kind_nonvacuous : sound (VInteger 4) /\ kind (VInteger 4) <> KTString.
Proof. split; [|done]. by apply sound_int. Qed.

(** C43: a call with valid arguments on a store of sound values returns a value or an error, unless an
    integer overflows in a debug build or a typed call meets another type.
    [valid]: at most 255 arguments, no reserved key, names and stored values within the size limits
    and none of the empty values of C14. *)
Theorem C43_partial :
  forall e s c,
  env_ok e -> room s -> all_sound (st_keys s) -> valid c (st_keys s) ->
  (debug e = true -> adds_up c (st_keys s)) -> right_kind c (st_keys s) ->
  comes_back (mem_call e s c).2.
Proof. exact c43_returns. Qed.
Print Assumptions C43_partial.

Example C43_nonvacuous :
  let ks := {[key "n" := VInteger 40]} : keyspace in
  all_sound ks /\
  Forall (fun c => valid c ks /\ adds_up c ks)
    [KGet (key "n"); KSet (key "m") (VMap {[key "k" := key "v"]}); KIncrementFloat (key "n") None;
     KAppend (key "l") (VList [key "a"]); KExists [key "a"; key "b"]; KLength (key "n") None; KStats].
Proof.
  split; [by apply ok_keys_sound; vm_compute|].
  repeat (apply Forall_cons; split; [by apply ok_valid_valid; vm_compute|]). by apply Forall_nil.
Qed.

(** C42: every history of calls on a new memory client, of whatever kind and with whatever keys, in
    which arguments and values fit the formats ([fits]) answers exactly what [real_call] says and
    leaves the keys it leaves: the map with five departures.  A panic does not end the history. *)
Theorem C42_every_history_partial :
  forall h,
  (lenN h < 2 ^ 63)%N -> all_fit h ideal_new ->
  let '(s, rs) := mem_calls h store_new in
  let '(i, xs) := real_calls h ideal_new in
  Forall2 really_meets rs xs /\ st_keys s = i_keys i.
Proof. exact c42_every_history. Qed.
Print Assumptions C42_every_history_partial.

Definition rough : list (bool * client_call) :=
  [(false, KIncrementBy (key "x") (VFloat f64_one)); (false, KGetTyped (key "x") KTFloat);
   (true, KIncrement (key "y") (Some KTFloat)); (true, KGet (key "y"));
   (true, KSet (key "z") (VInteger 9223372036854775807)); (true, KIncrementInt (key "z") None);
   (false, KIncrementInt (key "z") None); (true, KSet (key "b") (VBoolean true));
   (true, KRename (key "b") (key "__hop__:b")); (true, KLength (key "__hop__:b") None);
   (true, KGet (key "__hop__:b")); (true, KSet (key "__hop__:b") (VInteger 1));
   (true, KExists [key "__hop__:b"]); (true, KSet (key "l") (VList []));
   (true, KDecrementFloat (key "y") (Some 1%N)); (true, KGet (key "y")); (true, KStats)].
Example C42_every_history_nonvacuous :
  let h := map (fun dc => (env_std dc.1, dc.2)) rough in
  all_fit h ideal_new /\
  (mem_calls h store_new).2 =
  [ROk (RpValue (VInteger 4607182418800017408)); RPanic;
   RErr (CERunningCommand EKeyTypeDifferent); ROk (RpValue (VInteger 0));
   ROk (RpValue (VInteger 9223372036854775807)); RPanic;
   ROk (RpValue (VInteger (-9223372036854775808))); ROk (RpValue (VBoolean true));
   ROk (RpBytes (key "__hop__:b")); RErr (CERunningCommand EKeyTypeInvalid);
   RPanic; RPanic;
   ROk (RpBool false); RErr (CERunningCommand EArgumentRetrieval);
   RPanic; ROk (RpValue (VInteger (-1))); ROk (RpStats 10 3 0 0)].
Proof.
  split; [|vm_compute; reflexivity]. apply ok_fits_all_fit. vm_compute. reflexivity.
Qed.

(** C43: exactly when a call panics, after any history in which arguments and values fit: it is not
    refused, and it is given an internal key, or an integer overflows in a debug build, or a typed
    call is answered with another type. *)
Theorem C43_exactly_partial :
  forall h e c,
  (lenN h < 2 ^ 63 - 1)%N -> all_fit (h ++ [(e, c)]) ideal_new ->
  let s := (mem_calls h store_new).1 in
  (mem_call e s c).2 = RPanic <->
  refused c = None /\
  (on_internal c (st_keys s) \/ (debug e = true /\ overflow_in c (st_keys s)) \/
   wrong_kind c (st_keys s)).
Proof. exact c43_exactly. Qed.
Print Assumptions C43_exactly_partial.

Example C43_exactly_nonvacuous :
  let h := map (fun dc => (env_std dc.1, dc.2)) rough in
  let ks := {[key "z" := VInteger 9223372036854775807]} : keyspace in
  all_fit (h ++ [(env_std true, KGetTyped (key "y") KTString)]) ideal_new /\
  on_internal (KGet (key "__hop__:b")) ks /\ overflow_in (KIncrementInt (key "z") None) ks /\
  wrong_kind (KGetTyped (key "z") KTString) ks /\ wrong_kind (KIncrementFloat (key "q") None) ks.
Proof.
  cbv zeta. split_and!.
  - change (map _ rough ++ _) with
      (map (fun dc => (env_std dc.1, dc.2)) (rough ++ [(true, KGetTyped (key "y") KTString)])).
    apply ok_fits_all_fit. vm_compute. reflexivity.
  - vm_compute. reflexivity.
  - eexists _, _. split; [reflexivity|]. right. eexists. split; [reflexivity|]. by intros [_ ?].
  - eexists. split; [reflexivity|]. done.
  - by eexists.
Qed.

(** C44 is false: no call on a client of a server ever returns a value, whatever the server sends. *)
Theorem C44_refuted :
  forall e n c r,
  (srv_call e n c).2 <> ROk r.
Proof. exact c44_never. Qed.
Print Assumptions C44_refuted.

(** C44: what is written is the whole request the call stands for; the call then fails with
    [ConnectionClosed] without having read anything.
    Missing: that the answer is returned (false). *)
Theorem C44_partial :
  forall e n c,
  env_ok e -> (sends c <= 255)%N -> refused c = None ->
  Forall (fun a => lenN a < 2 ^ 32)%N (request_of e c).2 ->
  (forall k t, c <> KIncrement k (Some t)) -> n_write_ok n = true ->
  srv_call e n c = (wire_call e c, RErr CEConnectionClosed).
Proof. exact c44_sends. Qed.
Print Assumptions C44_partial.

(** C44: [increment] loses its key type on the way: a float step is sent as an integer step. *)
Theorem C44_increment_untyped :
  forall e n k t,
  env_ok e -> k <> [] -> (lenN k < 2 ^ 32)%N -> n_write_ok n = true ->
  srv_call e n (KIncrement k t) = (wire_request CIncrement None [k], RErr CEConnectionClosed).
Proof. exact c44_increment. Qed.
Print Assumptions C44_increment_untyped.

(** C44: a call that the client refuses writes nothing. *)
Theorem C44_refused :
  forall e n c err,
  env_ok e -> (sends c <= 255)%N -> refused c = Some err ->
  exists err', srv_call e n c = ([], RErr err').
Proof. exact c44_refused. Qed.
Print Assumptions C44_refused.

(** C44, with the server: a request written by a client is not answered, because the client does not
    write the newline the server waits for (unless the request contains one). *)
Theorem C44_unanswered : forall (e : env) (n : network) (call : client_call) (evs : list event)
  (cs : list conn) (s : store) (i : nat) (c : conn),
  env_ok e -> room_during evs store_new -> serves e store_new evs cs s -> cs !! i = Some c ->
  received i evs = (srv_call e n call).1 -> newline ∉ (srv_call e n call).1 ->
  ended i evs = false -> k_sent c = [].
Proof.
  intros e n call evs cs s i c He Hr Hs Hi Hrec Hn. rewrite <-Hrec in Hn. by eapply c39_no_newline.
Qed.
Print Assumptions C44_unanswered.
Definition reply_40 : network := Network true (resp_frame rel (RValue (VInteger 40))) false.
Example C44_nonvacuous :
  srv_call rel reply_40 (KGet (key "n"))
  = (wire_request CGet None [key "n"], RErr CEConnectionClosed) /\
  srv_call rel reply_40 (KIncrement (key "n") (Some KTFloat))
  = (wire_request CIncrement None [key "n"], RErr CEConnectionClosed) /\
  srv_call rel reply_40 (KAppend (key "n") (VInteger 4))
  = ([], RErr (CEKeyTypeUnsupported KTInteger None)) /\
  newline ∉ wire_request CGet None [key "n"].
Proof.
  split_and!; [vm_compute; reflexivity..|].
  apply (bool_decide_eq_true_1 (newline ∉ wire_request CGet None [key "n"])). vm_compute. reflexivity.
Qed.

(** C66: an accessor of the statistics returns the counter of its name in the map it is given. *)
Theorem C66_exact :
  forall d z,
  i64_range z ->
  (d !! lit "commands_successful"%string = Some (i64_enc z) -> stats_commands_successful d = z) /\
  (d !! lit "commands_errored"%string = Some (i64_enc z) -> stats_commands_errored d = z) /\
  (d !! lit "sessions_started"%string = Some (i64_enc z) -> stats_sessions_started d = z) /\
  (d !! lit "sessions_ended"%string = Some (i64_enc z) -> stats_sessions_ended d = z).
Proof. exact c66_exact. Qed.
Print Assumptions C66_exact.

(** C66: asked through a memory client in any state, the accessors return the engine's counters (those from
    2^63 on are left out and read as zero, and so are the ended sessions, which Stats does not report). *)
Theorem C66_from_engine :
  forall e s,
  env_ok e -> room s ->
  let reported m := if (count s m <? 2 ^ 63)%N then Z.of_N (count s m) else 0%Z in
  exists s' d, mem_stats e s = (s', ROk d) /\ st_keys s' = st_keys s /\
    stats_commands_successful d = reported MCommandsSuccessful /\
    stats_commands_errored d = reported MCommandsErrored /\
    stats_sessions_started d = reported MSessionsStarted /\
    stats_sessions_ended d = 0%Z.
Proof. exact c66_calls. Qed.
Print Assumptions C66_from_engine.

Example C66_nonvacuous :
  let s := Store ∅ {[MCommandsErrored := 7%N; MSessionsStarted := 3%N]} in
  room s /\ i64_range 7 /\
  match (mem_stats rel s).2 with
  | ROk d => d !! lit "commands_errored" = Some (i64_enc 7) /\
             stats_commands_errored d = 7%Z /\ stats_sessions_started d = 3%Z /\ stats_commands_successful d = 0%Z
  | _ => False
  end.
Proof. split_and!; [intros []; vm_compute; reflexivity|by vm_compute..|vm_compute; split_and!; reflexivity]. Qed.

(** C67: [exists] and [is] on several keys are accepted exactly for 1 to 255 keys. *)
Theorem C67_exact :
  forall l,
  match checked_keys l with
  | inl NoKeys => l = []
  | inl TooManyKeys => (255 < lenN l)%N
  | inr l' => l' = l /\ (1 <= lenN l <= 255)%N
  end.
Proof. exact checked_keys_spec. Qed.
Print Assumptions C67_exact.

Example C67_nonvacuous :
  checked_keys [] = inl NoKeys /\ checked_keys [key "a"; key "b"] = inr [key "a"; key "b"] /\
  checked_keys (replicate 256 (key "a")) = inl TooManyKeys.
Proof. vm_compute. split_and!; reflexivity. Qed.
