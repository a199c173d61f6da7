(** The client crate: client/src/backend/memory.rs, client/src/backend/server.rs,
    client/src/model.rs and the typed requests of client/src/request.

    Polling is modelled in [Futures].  Not modelled: [Client]'s [Arc] and the [AsRef]/[Into]
    conversions of arguments, which do not change bytes. *)
From Coq Require Import String.
From Verif Require Import Bytes Utf8 Float64 Value CommandId Request Response RespContext
  Metrics Prog Commands.
From stdpp Require Import gmap list.
From Coq Require Import NArith ZArith.

(** [Error], client/src/backend/memory.rs:20-27 and client/src/backend/server.rs:30-41.
    One type for both backends; the server's [KeyTypeUnsupported] has no value.
    [std::io::Error]s carry no data here. *)
Inductive client_error :=
| CEBadRequest (source : parse_error)
| CEBadResponse
| CEBuildingRequest (source : builder_error)
| CEConnecting
| CEConnectionClosed
| CEDispatching (source : dispatch_error)
| CEKeyTypeInvalid (number : N)
| CEKeyTypeUnsupported (key_type : key_type) (value : option value)
| CEReadingMessage
| CEWritingMessage
| CERunningCommand (source : dispatch_error).

(** The result of a client method: [Ok], [Err] or a panic.  [RNever] is an await that does
    not return; client/src/backend/memory.rs:95-112, client/src/backend/server.rs:117-153. *)
Inductive client_res (A : Type) :=
| ROk (a : A)
| RErr (err : client_error)
| RPanic
| RNever.
Arguments ROk {A} _.
Arguments RErr {A} _.
Arguments RPanic {A}.
Arguments RNever {A}.

(** The [?] operator; e.g. client/src/backend/memory.rs:128. *)
Definition rbind {A B} (r : client_res A) (f : A -> client_res B) : client_res B :=
  match r with
  | ROk a => f a
  | RErr err => RErr err
  | RPanic => RPanic
  | RNever => RNever
  end.

(** [builder.bytes(..)?] and [builder.value(..)?]: [From<RequestBuilderError>],
    client/src/backend/memory.rs:78-82, client/src/backend/server.rs:91-95 *)
Definition built_or (r : builder_res) : client_res builder :=
  match r with
  | Ok (b, None) => ROk b
  | Ok (_, Some err) => RErr (CEBuildingRequest err)
  | Panic => RPanic
  end.

(** [builder.bytes(b)?], e.g. client/src/backend/memory.rs:128. *)
Definition put_bytes (e : env) (b : builder) (bs : bytes) : client_res builder :=
  built_or (builder_bytes e b bs).
(** [builder.value(v)?], e.g. client/src/backend/memory.rs:163. *)
Definition put_value (e : env) (b : builder) (v : value) : client_res builder :=
  built_or (builder_value e b v).

(** [for key in keys { builder.bytes(key.as_ref())?; }];
    client/src/backend/memory.rs:209-211,268-270. *)
Fixpoint put_all (e : env) (b : builder) (l : list bytes) : client_res builder :=
  match l with
  | [] => ROk b
  | x :: l => rbind (put_bytes e b x) (fun b => put_all e b l)
  end.

(** The match of [append], client/src/backend/memory.rs:130-143; [u] is the error for a value
    that cannot be appended. *)
Definition put_appended (e : env) (u : client_error) (b : builder) (v : value)
  : client_res builder :=
  match v with
  | VBytes bs => put_bytes e b bs
  | VList l => put_all e b l
  | VString s => put_bytes e b s
  | _ => RErr u
  end.

(** [key_type != KeyType::Float && key_type != KeyType::Integer];
    client/src/backend/memory.rs:159,237. *)
Definition not_number (v : value) : bool :=
  match kind v with KTFloat | KTInteger => false | _ => true end.

(** ** The memory backend *)

(** [MemoryBackend::send], client/src/backend/memory.rs:95-112.  [unwrap] of a parser error
    panics, as does [unreachable!]; the parser's out-of-fuel answer is impossible
    ([C16_terminates_partial]). *)
Definition mem_send (e : env) (s : store) (b : builder) : store * client_res value :=
  let '(s, r) := dispatch e s (into_request b) [] in
  (s, match r with
      | CErr source _ => RErr (CERunningCommand source)
      | CPanic => RPanic
      | COk resp =>
        match (resp_feed (debug e) resp_ctx_new resp).2 with
        | PConcluded (RValue v) => ROk v
        | PConcluded (RDispatchError source) => RErr (CEDispatching source)
        | PConcluded (RParseError source) => RErr (CEBadRequest source)
        | PReadBytes _ | PError _ | PPanic | PFuel => RPanic
        end
      end).

(** A method: build the request, send it, take the value apart;
    e.g. client/src/backend/memory.rs:183-191. *)
Definition mem_method {A} (e : env) (s : store) (b : client_res builder)
  (f : value -> client_res A) : store * client_res A :=
  match b with
  | ROk b => let '(s, r) := mem_send e s b in (s, rbind r f)
  | RErr err => (s, RErr err)
  | RPanic => (s, RPanic)
  | RNever => (s, RNever)
  end.

(** Taking the answered value apart: the arms of the [match self.send(builder)?];
    e.g. client/src/backend/memory.rs:187-190. *)
Definition or_panic {A} (x : option A) : client_res A :=
  match x with Some a => ROk a | None => RPanic end.

(** client/src/backend/memory.rs:165-169,176-180,243-247,254-258. *)
Definition a_number (v : value) : option value :=
  match v with VFloat _ | VInteger _ => Some v | _ => None end.

(** The body of [key_type], client/src/backend/memory.rs:282-291 *)
Definition a_key_type (z : Z) : client_res key_type :=
  let number := as_u8 (Z.to_N (z mod 2 ^ 64)) in
  match key_type_of_u8 number with
  | Some t => ROk t
  | None => RErr (CEKeyTypeInvalid number)
  end.

(** client/src/backend/memory.rs:119-146 *)
Definition mem_append (e : env) (s : store) (k : bytes) (v : value) : store * client_res value :=
  mem_method e s
    (rbind (put_bytes e (builder_new_kt CAppend (Some (kind v))) k) (fun b =>
     put_appended e (CEKeyTypeUnsupported (kind v) (Some v)) b v)) ROk.

(** client/src/backend/memory.rs:148-170 *)
Definition mem_decrement_by (e : env) (s : store) (k : bytes) (v : value) : store * client_res value :=
  mem_method e s
    (rbind (put_bytes e (builder_new_kt CDecrementBy (Some (kind v))) k) (fun b =>
     if not_number v then RErr (CEKeyTypeUnsupported (kind v) (Some v)) else put_value e b v))
    (fun v => or_panic (a_number v)).

(** client/src/backend/memory.rs:172-181 *)
Definition mem_decrement (e : env) (s : store) (k : bytes) (kt : option key_type) : store * client_res value :=
  mem_method e s (put_bytes e (builder_new_kt CDecrement kt) k) (fun v => or_panic (a_number v)).

(** client/src/backend/memory.rs:183-191 *)
Definition mem_delete (e : env) (s : store) (k : bytes) : store * client_res bytes :=
  mem_method e s (put_bytes e (builder_new CDelete) k) (fun v => or_panic (as_bytes v)).

(** client/src/backend/memory.rs:193-201 *)
Definition mem_echo (e : env) (s : store) (content : bytes) : store * client_res (list bytes) :=
  mem_method e s (put_bytes e (builder_new CEcho) content) (fun v => or_panic (as_list v)).

(** client/src/backend/memory.rs:203-217 *)
Definition mem_exists (e : env) (s : store) (keys : list bytes) : store * client_res bool :=
  mem_method e s (put_all e (builder_new CExists) keys) (fun v => or_panic (as_boolean v)).

(** client/src/backend/memory.rs:219-224 *)
Definition mem_get (e : env) (s : store) (k : bytes) : store * client_res value :=
  mem_method e s (put_bytes e (builder_new CGet) k) ROk.

(** client/src/backend/memory.rs:226-248 *)
Definition mem_increment_by (e : env) (s : store) (k : bytes) (v : value) : store * client_res value :=
  mem_method e s
    (rbind (put_bytes e (builder_new_kt CIncrementBy (Some (kind v))) k) (fun b =>
     if not_number v then RErr (CEKeyTypeUnsupported (kind v) (Some v)) else put_value e b v))
    (fun v => or_panic (a_number v)).

(** client/src/backend/memory.rs:250-259 *)
Definition mem_increment (e : env) (s : store) (k : bytes) (kt : option key_type) : store * client_res value :=
  mem_method e s (put_bytes e (builder_new_kt CIncrement kt) k) (fun v => or_panic (a_number v)).

(** client/src/backend/memory.rs:261-276 *)
Definition mem_is (e : env) (s : store) (t : key_type) (keys : list bytes) : store * client_res bool :=
  mem_method e s (put_all e (builder_new_kt CIs (Some t)) keys) (fun v => or_panic (as_boolean v)).

(** client/src/backend/memory.rs:278-292 *)
Definition mem_key_type (e : env) (s : store) (k : bytes) : store * client_res key_type :=
  mem_method e s (put_bytes e (builder_new CType) k)
    (fun v => rbind (or_panic (as_integer v)) a_key_type).

(** client/src/backend/memory.rs:294-302 *)
Definition mem_keys (e : env) (s : store) (k : bytes) : store * client_res (list bytes) :=
  mem_method e s (put_bytes e (builder_new CKeys) k) (fun v => or_panic (as_list v)).

(** client/src/backend/memory.rs:304-312 *)
Definition mem_length (e : env) (s : store) (k : bytes) (kt : option key_type) : store * client_res Z :=
  mem_method e s (put_bytes e (builder_new_kt CLength kt) k) (fun v => or_panic (as_integer v)).

(** client/src/backend/memory.rs:314-323 *)
Definition mem_rename (e : env) (s : store) (from to : bytes) : store * client_res bytes :=
  mem_method e s
    (rbind (put_bytes e (builder_new CRename) from) (fun b => put_bytes e b to))
    (fun v => or_panic (as_bytes v)).

(** client/src/backend/memory.rs:325-334 *)
Definition mem_set (e : env) (s : store) (k : bytes) (v : value) : store * client_res value :=
  mem_method e s
    (rbind (put_bytes e (builder_new_kt CSet (Some (kind v))) k) (fun b => put_value e b v)) ROk.

(** client/src/backend/memory.rs:336-345; [StatsData::new] keeps the map *)
Definition mem_stats (e : env) (s : store) : store * client_res (gmap bytes bytes) :=
  mem_method e s (ROk (builder_new CStats)) (fun v => or_panic (as_map v)).

(** ** The statistics a client reads: client/src/model.rs *)

(** [StatsData::int], client/src/model.rs:15-21: [try_into] a [&[u8; 8]], zero if there is no
    such entry or it is not eight bytes. *)
Definition stats_int (d : gmap bytes bytes) (m : metric) : Z :=
  match d !! metric_name m with
  | Some b => if (lenN b =? 8)%N then i64_dec b else 0
  | None => 0
  end.
(** client/src/model.rs:23-37 *)
Definition stats_commands_errored (d : gmap bytes bytes) : Z := stats_int d MCommandsErrored.
(** client/src/model.rs:27-29. *)
Definition stats_commands_successful (d : gmap bytes bytes) : Z := stats_int d MCommandsSuccessful.
(** client/src/model.rs:31-33. *)
Definition stats_sessions_ended (d : gmap bytes bytes) : Z := stats_int d MSessionsEnded.
(** client/src/model.rs:35-37. *)
Definition stats_sessions_started (d : gmap bytes bytes) : Z := stats_int d MSessionsStarted.

(** ** The requests of the client: client/src/request *)

(** [match value { Value::X(x) => Ok(x), _ => unreachable!() }];
    e.g. client/src/request/increment/increment_int.rs:53-58. *)
Definition of_kind (t : key_type) (v : value) : client_res value :=
  if decide (kind v = t) then ROk v else RPanic.

(** The same after a call (client/src/request/increment/increment_int.rs:53-58). *)
Definition then_kind (t : key_type) (r : store * client_res value) : store * client_res value :=
  (r.1, rbind r.2 (of_kind t)).

(** [get(k).boolean()] ... [get(k).string()]: client/src/request/get/get_boolean.rs:42-49 and the
    same lines of get_bytes.rs, get_float.rs, get_integer.rs, get_list.rs, get_map.rs,
    get_set.rs, get_string.rs *)
Definition get_typed (e : env) (s : store) (k : bytes) (t : key_type) := then_kind t (mem_get e s k).

(** [set(k).boolean(x)] ... [set(k).string(x)]: client/src/request/set/set_boolean.rs:45-52 and
    the same lines of its siblings, set_set.rs:46-56.  The value is of the kind named. *)
Definition set_typed (e : env) (s : store) (k : bytes) (v : value) := then_kind (kind v) (mem_set e s k v).

(** [append(k).bytes(x)], [.list(x)], [.string(x)]: client/src/request/append/append_bytes.rs:45-52
    and the same lines of append_list.rs, append_string.rs *)
Definition append_typed (e : env) (s : store) (k : bytes) (v : value) := then_kind (kind v) (mem_append e s k v).

(** [increment(k).int()], [.int().by(n)]: client/src/request/increment/increment_int.rs:24-37,
    51-58 *)
Definition increment_int (e : env) (s : store) (k : bytes) (by_ : option Z) :=
  then_kind KTInteger (mem_increment_by e s k (VInteger (default 1%Z by_))).
(** client/src/request/increment/increment_float.rs:24-37, 51-58 *)
Definition increment_float (e : env) (s : store) (k : bytes) (by_ : option N) :=
  then_kind KTFloat (mem_increment_by e s k (VFloat (default f64_one by_))).
(** client/src/request/decrement/decrement_int.rs:24-37, 51-58 *)
Definition decrement_int (e : env) (s : store) (k : bytes) (by_ : option Z) :=
  then_kind KTInteger (mem_decrement_by e s k (VInteger (default 1%Z by_))).
(** client/src/request/decrement/decrement_float.rs:24-37, 51-58 *)
Definition decrement_float (e : env) (s : store) (k : bytes) (by_ : option N) :=
  then_kind KTFloat (mem_decrement_by e s k (VFloat (default f64_one by_))).

(** [CommandConfigurationError], client/src/request/mod.rs:40-44 *)
Inductive config_error := NoKeys | TooManyKeys.

(** [Exists::keys] and [Is::keys] check the keys before any request is made,
    client/src/request/exists.rs:81-94, client/src/request/is.rs:83-96 *)
Definition checked_keys (keys : list bytes) : config_error + list bytes :=
  match keys with
  | [] => inl NoKeys
  | _ => if (255 <? lenN keys)%N then inl TooManyKeys else inr keys
  end.

(** ** The server backend: client/src/backend/server.rs *)

(** The world a call sees: whether the write succeeds, the bytes that will arrive, and whether the
    connection is closed after them; client/src/backend/server.rs:117-138. *)
Record network := Network { n_write_ok : bool; n_arrives : bytes; n_closed : bool }.

(** tokio's [read_exact] into a buffer of [len] bytes: it returns once [len] bytes have arrived
    (at once if [len] is 0), fails if the stream ends before, and else waits;
    client/src/backend/server.rs:131-134. *)
Inductive read_res := ReadOk (bs rest : bytes) | ReadFailed | ReadWaits.
(** tokio's [read_exact], client/src/backend/server.rs:131-134. *)
Definition read_exact (len : N) (arrives : bytes) (closed : bool) : read_res :=
  if (len <=? lenN arrives)%N
  then ReadOk (take (N.to_nat len) arrives) (drop (N.to_nat len) arrives)
  else if closed then ReadFailed else ReadWaits.

(** The loop of [send_and_wait], client/src/backend/server.rs:131-152.  [resp] is the vector;
    [with_capacity] and [reserve_exact] leave its length as it is, so [read_exact] reads
    [resp.len()] bytes over it.  One round per unit of fuel; [RNever] when it runs out. *)
Fixpoint wait_loop (fuel : nat) (e : env) (ctx : resp_ctx) (resp : bytes) (arrives : bytes)
  (closed : bool) : client_res value :=
  match fuel with
  | O => RNever
  | S fuel =>
    match read_exact (lenN resp) arrives closed with
    | ReadFailed => RErr CEReadingMessage
    | ReadWaits => RNever
    | ReadOk resp arrives =>
      if (lenN resp =? 0)%N then RErr CEConnectionClosed
      else
        let '(ctx, r) := resp_feed (debug e) ctx resp in
        match r with
        | PConcluded (RValue v) => ROk v
        | PConcluded (RDispatchError reason) => RErr (CEDispatching reason)
        | PConcluded (RParseError reason) => RErr (CEBadRequest reason)
        | PReadBytes _ => wait_loop fuel e ctx resp arrives closed
        | PError _ | PPanic | PFuel => RPanic
        end
    end
  end.

(** [ServerBackend::send_and_wait], client/src/backend/server.rs:117-153; also the bytes written
    to the connection. *)
Definition send_and_wait (e : env) (n : network) (b : builder) : bytes * client_res value :=
  if n_write_ok n
  then (r_buf (into_request b),
        wait_loop (S (length (n_arrives n))) e resp_ctx_new [] (n_arrives n) (n_closed n))
  else ([], RErr CEWritingMessage).

(** A method: build the request, send it, take the value apart, e.g. client/src/backend/server.rs:185-205. *)
Definition srv_method {A} (e : env) (n : network) (b : client_res builder)
  (f : value -> client_res A) : bytes * client_res A :=
  match b with
  | ROk b => let '(w, r) := send_and_wait e n b in (w, rbind r f)
  | RErr err => ([], RErr err)
  | RPanic => ([], RPanic)
  | RNever => ([], RNever)
  end.

(** [_ => Err(Error::BadResponse)]; client/src/backend/server.rs:200-205. *)
Definition or_bad {A} (x : option A) : client_res A :=
  match x with Some a => ROk a | None => RErr CEBadResponse end.

(** client/src/backend/server.rs:160-183 *)
Definition srv_append (e : env) (n : network) (k : bytes) (v : value) : bytes * client_res value :=
  srv_method e n
    (rbind (put_bytes e (builder_new_kt CAppend (Some (kind v))) k) (fun b =>
     put_appended e (CEKeyTypeUnsupported (kind v) None) b v)) ROk.
(** client/src/backend/server.rs:185-205 *)
Definition srv_decrement_by (e : env) (n : network) (k : bytes) (v : value) : bytes * client_res value :=
  srv_method e n
    (rbind (put_bytes e (builder_new_kt CDecrementBy (Some (kind v))) k) (fun b =>
     if not_number v then RErr (CEKeyTypeUnsupported (kind v) None) else put_value e b v))
    (fun v => or_bad (a_number v)).
(** client/src/backend/server.rs:207-218 *)
Definition srv_decrement (e : env) (n : network) (k : bytes) (kt : option key_type) : bytes * client_res value :=
  srv_method e n (put_bytes e (builder_new_kt CDecrement kt) k) (fun v => or_bad (a_number v)).
(** client/src/backend/server.rs:220-230 *)
Definition srv_delete (e : env) (n : network) (k : bytes) : bytes * client_res bytes :=
  srv_method e n (put_bytes e (builder_new CDelete) k) (fun v => or_bad (as_bytes v)).
(** client/src/backend/server.rs:232-242 *)
Definition srv_echo (e : env) (n : network) (content : bytes) : bytes * client_res (list bytes) :=
  srv_method e n (put_bytes e (builder_new CEcho) content) (fun v => or_bad (as_list v)).
(** client/src/backend/server.rs:244-260 *)
Definition srv_exists (e : env) (n : network) (keys : list bytes) : bytes * client_res bool :=
  srv_method e n (put_all e (builder_new CExists) keys) (fun v => or_bad (as_boolean v)).
(** client/src/backend/server.rs:262-267 *)
Definition srv_get (e : env) (n : network) (k : bytes) : bytes * client_res value :=
  srv_method e n (put_bytes e (builder_new CGet) k) ROk.
(** client/src/backend/server.rs:269-288: here the type is checked first *)
Definition srv_increment_by (e : env) (n : network) (k : bytes) (v : value) : bytes * client_res value :=
  srv_method e n
    (if not_number v then RErr (CEKeyTypeUnsupported (kind v) None)
     else rbind (put_bytes e (builder_new_kt CIncrementBy (Some (kind v))) k) (fun b =>
          put_value e b v))
    (fun v => or_bad (a_number v)).
(** client/src/backend/server.rs:290-301: the key type is ignored *)
Definition srv_increment (e : env) (n : network) (k : bytes) (_ : option key_type) : bytes * client_res value :=
  srv_method e n (put_bytes e (builder_new CIncrement) k) (fun v => or_bad (a_number v)).
(** client/src/backend/server.rs:303-320 *)
Definition srv_is (e : env) (n : network) (t : key_type) (keys : list bytes) : bytes * client_res bool :=
  srv_method e n (put_all e (builder_new_kt CIs (Some t)) keys) (fun v => or_bad (as_boolean v)).
(** client/src/backend/server.rs:322-338 *)
Definition srv_key_type (e : env) (n : network) (k : bytes) : bytes * client_res key_type :=
  srv_method e n (put_bytes e (builder_new CType) k)
    (fun v => rbind (or_bad (as_integer v)) a_key_type).
(** client/src/backend/server.rs:340-350 *)
Definition srv_keys (e : env) (n : network) (k : bytes) : bytes * client_res (list bytes) :=
  srv_method e n (put_bytes e (builder_new CKeys) k) (fun v => or_bad (as_list v)).
(** client/src/backend/server.rs:352-362 *)
Definition srv_length (e : env) (n : network) (k : bytes) (kt : option key_type) : bytes * client_res Z :=
  srv_method e n (put_bytes e (builder_new_kt CLength kt) k) (fun v => or_bad (as_integer v)).
(** client/src/backend/server.rs:364-375 *)
Definition srv_rename (e : env) (n : network) (from to : bytes) : bytes * client_res bytes :=
  srv_method e n
    (rbind (put_bytes e (builder_new CRename) from) (fun b => put_bytes e b to))
    (fun v => or_bad (as_bytes v)).
(** client/src/backend/server.rs:377-388 *)
Definition srv_stats (e : env) (n : network) : bytes * client_res (gmap bytes bytes) :=
  srv_method e n (ROk (builder_new CStats)) (fun v => or_bad (as_map v)).
(** client/src/backend/server.rs:390-399 *)
Definition srv_set (e : env) (n : network) (k : bytes) (v : value) : bytes * client_res value :=
  srv_method e n
    (rbind (put_bytes e (builder_new_kt CSet (Some (kind v))) k) (fun b => put_value e b v)) ROk.
