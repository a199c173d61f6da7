(** Clients and a server together: C110.
    The system is in [System], the vocabulary is in [ServerSpec], [ShareSpec], [CostSpec] and [SystemSpec]. *)
From Coq Require Import String.
From Verif Require Import Bytes BytesFacts Value CommandId Request RequestSpec Prog Commands Client ClientSpec Wire ShareSpec
  Server ServerSpec CostSpec System SystemSpec SystemFacts.
From stdpp Require Import gmap list.
From Coq Require Import NArith ZArith.

Definition rel : env := env_std false.
Definition up : network := Network true [] false.

(** Through the network a call never has the answer it has in memory: whatever the clients, the network
    and the server do, every call that returns reports an error. *)
Theorem C110_refuted :
  forall e evs x i l j r,
  system_run e evs system_new = Some x -> y_ends x !! i = Some l ->
  w_calls (l_wire l) !! j = Some (WReturned r) ->
  r = RErr CEConnectionClosed \/ r = RErr CEWritingMessage.
Proof. exact c110_no_answer. Qed.
Print Assumptions C110_refuted.

(** Nor the effect: whatever is called, nothing is ever stored. *)
Theorem C110_stored_refuted :
  forall e evs x,
  system_run e evs system_new = Some x -> st_keys (y_server x).2 = ∅.
Proof. exact c110_nothing_stored. Qed.
Print Assumptions C110_stored_refuted.

(** A client that cannot connect is not told so: it panics, although the backend reports the error. *)
Theorem C110_connect_refuted :
  client_connect false = RPanic /\ backend_connect false = RErr CEConnecting.
Proof. exact c110_connect. Qed.
Print Assumptions C110_connect_refuted.

(** What holds of a call: the server receives a beginning of what the client wrote, in order, and it
    does with these bytes what it does with any (C39, C40, C41). *)
Theorem C110_carried_partial :
  forall e evs x,
  system_run e evs system_new = Some x ->
  exists sevs, serves e store_new sevs (y_server x).1 (y_server x).2 /\
    forall i l, y_ends x !! i = Some l -> received i sevs `prefix_of` w_sent (l_wire l).
Proof. exact c110_carried. Qed.
Print Assumptions C110_carried_partial.

(** The server answers at most one line for each newline the client wrote, and one when it hung up. *)
Theorem C110_bounded_partial :
  forall e evs x i l c,
  env_ok e -> (lenN evs < 2 ^ 64)%N -> system_run e evs system_new = Some x ->
  y_ends x !! i = Some l -> (y_server x).1 !! i = Some c ->
  (lenN (k_sent c) <= largest_answer * (line_ends (w_sent (l_wire l)) + if hung_up i evs then 1 else 0))%N.
Proof. exact c110_bounded. Qed.
Print Assumptions C110_bounded_partial.

(** Whatever has happened, all calls of all clients can come to an end, whether or not the server and
    the network do anything. *)
Theorem C110_finishes_partial :
  forall e evs x,
  system_run e evs system_new = Some x ->
  exists more y, system_run e (evs ++ more) system_new = Some y /\
    (forall ev, ev ∈ more -> exists i w, ev = YClient i w /\ smooth w) /\
    forall i l j c, y_ends y !! i = Some l -> w_calls (l_wire l) !! j = Some c -> is_over c.
Proof. exact c110_finishes. Qed.
Print Assumptions C110_finishes_partial.

Definition requests (l : list client_call) : list bytes := map (fun c => (srv_call rel up c).1) l.

(** Two clients.  The first sets a key in two writes, the second asks for an echo of a newline, which
    the server answers because a line has ended. *)
Definition story : list system_event :=
  [YConnect rel (requests [KSet (lit "a") (VInteger 1); KGet (lit "a")]);
   YConnect rel (requests [KEcho [newline]]);
   YClient 0 (WLock 0); YClient 0 (WWrite 0 5); YCarry 0 3; YClient 1 (WLock 0);
   YClient 1 (WWrite 0 7); YClient 0 (WWrite 0 15); YClient 1 (WDone 0);
   YClient 0 (WDone 0); YCarry 1 7; YStep 0; YStep 1; YStep 1; YStep 1; YCarry 0 17;
   YClient 0 (WRead 0 [] false); YEnd 1; YClient 1 (WRead 0 (map n2b [0; 0; 0]%N) false)].

Example C110_nonvacuous :
  match system_run rel story system_new with
  | Some x =>
    map (fun l => w_calls (l_wire l)) (y_ends x) =
      [[WReturned (RErr CEConnectionClosed); WQueued]; [WReturned (RErr CEConnectionClosed)]] /\
    map k_sent (y_server x).1 = [[]; map n2b [0; 0; 0; 3; 4; 0; 0]%N] /\
    map (fun l => l_carried l) (y_ends x) = [20; 7] /\
    map (fun l => line_ends (w_sent (l_wire l))) (y_ends x) = [0; 1]%N
  | None => False
  end /\ hung_up 1 story = true /\ hung_up 0 story = false.
Proof. vm_compute. split_and!; reflexivity. Qed.

(** In memory the same calls succeed. *)
Example C110_in_memory :
  (mem_call rel store_new (KSet (lit "a") (VInteger 1))).2 = ROk (RpValue (VInteger 1)) /\
  (mem_call rel store_new (KEcho [newline])).2 = ROk (RpItems [[newline]]).
Proof. split; vm_compute; reflexivity. Qed.
