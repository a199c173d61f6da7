(** Vocabulary for statements about the server (C39 - C41, C65). *)
From Verif Require Import Bytes Value CommandId Request ReqContext Response Metrics Prog Commands
  WireSpec Server.
From stdpp Require Import gmap list.
From Coq Require Import NArith ZArith.

(** What connection [i] received, whether its peer closed it, and whether it failed. *)
Definition received (i : nat) (evs : list event) : bytes :=
  concat (map (fun ev => match ev with
                         | EDeliver j bs => if decide (j = i) then bs else []
                         | _ => []
                         end) evs).

Definition ended (i : nat) (evs : list event) : bool :=
  existsb (fun ev => match ev with EEnd j => bool_decide (j = i) | _ => false end) evs.

(** The run of a server with stored data [s0] and no connections yet. *)
Definition serves (e : env) (s0 : store) (evs : list event) (cs : list conn) (s : store) : Prop :=
  server_run e evs ([], s0) = Some (cs, s).

(** The counters cannot overflow during these events. *)
Definition room_during (evs : list event) (s : store) : Prop :=
  forall m, (default 0 (st_counters s !! m) + lenN evs < 2 ^ 64)%N.

(** The task of the connection waits for input or is over. *)
Definition at_rest (e : env) (c : conn) (s : store) : Prop := conn_step e c s = None.

(** The bytes of the responses. *)
Definition all_frames (e : env) (rs : list response) : bytes := concat (map (resp_frame e) rs).

(** A map of statistics. *)
Definition statistics (m : gmap bytes bytes) : Prop :=
  forall k v, m !! k = Some v ->
    k ∈ map metric_name [MCommandsErrored; MCommandsSuccessful; MSessionsStarted] /\
    exists n, (n < 2 ^ 63)%N /\ v = i64_enc (Z.of_N n).

(** The answers to a command without any argument. *)
Definition answers_bare (c : command_id) (r : response) : Prop :=
  match c with
  | CStats => exists m, r = RValue (VMap m) /\ statistics m
  | CEcho => r = RValue (VList [])
  | CExists => r = RDispatchError EArgumentRetrieval
  | CIs => r = RDispatchError EKeyTypeRequired
  | _ => r = RDispatchError EKeyUnspecified
  end.

(** ** How a stream is cut into messages *)

(** A new parser would not ask for more. *)
Definition conclusive (m : bytes) : bool :=
  match (req_feed req_ctx_new m).2 with FNeedMore => false | _ => true end.

(** A message ends at the first newline where it is conclusive: the messages of a stream
    after a pending beginning, and what is pending after it. *)
Fixpoint messages (pending stream : bytes) : list bytes * bytes :=
  match stream with
  | [] => ([], pending)
  | b :: r =>
    let p := pending ++ [b] in
    if (b2n b =? 10)%N && conclusive p then
      let '(ms, t) := messages [] r in (p :: ms, t)
    else messages p r
  end.

Definition ends_line (bs : bytes) : bool :=
  match last bs with None => true | Some b => (b2n b =? 10)%N end.

(** When the peer has closed, an unfinished line is a message if it is conclusive. *)
Definition cut (closed : bool) (stream : bytes) : list bytes :=
  let '(ms, t) := messages [] stream in
  ms ++ (if closed && negb (ends_line t) && conclusive t then [t] else []).

(** The response [r] answers the message [m]. *)
Definition answers (m : bytes) (r : response) : Prop :=
  match (req_feed req_ctx_new m).2 with
  | FRequest req => answers_bare (r_command req) r
  | FError err => r = RParseError err
  | _ => False
  end.

(** The messages dispatched one after the other with nothing else running: what is written,
    the state after it, and whether the connection is alive. *)
Fixpoint one_by_one (e : env) (s : store) (ms : list bytes) : bytes * store * bool :=
  match ms with
  | [] => ([], s, true)
  | m :: r =>
    match (req_feed req_ctx_new m).2 with
    | FRequest req =>
      match dispatch e s req [] with
      | (s1, COk b) => let '(out, s2, alive) := one_by_one e s1 r in (b ++ out, s2, alive)
      | (s1, CErr err b) =>
        let '(out, s2, alive) := one_by_one e s1 r in
        (write_dispatch_error b err ++ out, s2, alive)
      | (s1, CPanic) => ([], s1, false)
      end
    | FError err =>
      let '(out, s2, alive) := one_by_one e s r in (write_parse_error [] err ++ out, s2, alive)
    | _ => ([], s, false)
    end
  end.

(** Equal, or both statistics. *)
Definition like (r1 r2 : response) : Prop :=
  r1 = r2 \/ exists m1 m2, r1 = RValue (VMap m1) /\ statistics m1 /\
                           r2 = RValue (VMap m2) /\ statistics m2.

(** ** Lines of requests *)

(** Encoded requests, by the documented format, that the server can tell apart when each is
    followed by a newline. *)
Inductive sendable : bytes -> (response -> Prop) -> Prop :=
| sendable_simple : sendable [n2b (command_id_to_u8 CStats)] (answers_bare CStats)
| sendable_untyped c l :
    is_simple c = false -> l <> [] -> (lenN l <= 255)%N -> Forall (fun a => lenN a < u32_mod)%N l ->
    (* no newline among the last five bytes *)
    newline ∉ drop (length (wire_request c None l) - 5) (wire_request c None l) ->
    sendable (wire_request c None l) (answers_bare c)
| sendable_typed c t l :
    newline ∉ wire_request c (Some t) l ->
    sendable (wire_request c (Some t) l) (fun r => r = RParseError PEKeyTypeInvalid).

(** The server after the events, when they are possible. *)
Definition outcome_of (e : env) (s0 : store) (evs : list event) : list conn * store :=
  match server_run e evs ([], s0) with Some x => x | None => ([], s0) end.

(** ** Other segmentations *)

(** The pieces in which connection [i] received its bytes. *)
Definition pieces (i : nat) (evs : list event) : list bytes :=
  omap (fun ev => match ev with
                  | EDeliver j bs => if decide (j = i) then Some bs else None
                  | _ => None
                  end) evs.

(** All that happened except that bytes arrived on connection [i] and that its task ran. *)
Definition besides (i : nat) (evs : list event) : list event :=
  List.filter (fun ev => match ev with
                         | EDeliver j _ | EStep j => negb (bool_decide (j = i))
                         | _ => true
                         end) evs.
