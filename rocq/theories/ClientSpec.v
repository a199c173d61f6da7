(** What a user of the client expects: a map from keys to typed values. *)
From Coq Require Import String.
From Verif Require Import Bytes Utf8 Float64 Value CommandId Request Response RespContext
  Metrics Prog Commands EngineSpec WireSpec RequestSpec HistorySpec Client.
From stdpp Require Import gmap list.
From Coq Require Import NArith ZArith.

(** A call of the client API.  The last seven are the typed requests, such as
    [client.get(k).int()] and [client.increment(k).float().by(x)]. *)
Inductive client_call :=
| KAppend (k : bytes) (v : value)
| KDecrement (k : bytes) (t : option key_type)
| KDecrementBy (k : bytes) (v : value)
| KDelete (k : bytes)
| KEcho (content : bytes)
| KExists (keys : list bytes)
| KGet (k : bytes)
| KIncrement (k : bytes) (t : option key_type)
| KIncrementBy (k : bytes) (v : value)
| KIs (t : key_type) (keys : list bytes)
| KKeyType (k : bytes)
| KKeys (k : bytes)
| KLength (k : bytes) (t : option key_type)
| KRename (from to : bytes)
| KSet (k : bytes) (v : value)
| KStats
| KGetTyped (k : bytes) (t : key_type)
| KSetTyped (k : bytes) (v : value)
| KAppendTyped (k : bytes) (v : value)
| KIncrementInt (k : bytes) (n : option Z)
| KIncrementFloat (k : bytes) (x : option N)
| KDecrementInt (k : bytes) (n : option Z)
| KDecrementFloat (k : bytes) (x : option N).

(** What a call can return. *)
Inductive reply :=
| RpValue (v : value)
| RpBytes (b : bytes)
| RpItems (l : list bytes)
| RpBool (b : bool)
| RpInt (z : Z)
| RpType (t : key_type)
| RpStats (successful errored started ended : Z).

Definition with_reply {A} (f : A -> reply) (r : store * client_res A)
  : store * client_res reply := (r.1, rbind r.2 (fun a => ROk (f a))).

(** The call on a memory client. *)
Definition mem_call (e : env) (s : store) (c : client_call) : store * client_res reply :=
  match c with
  | KAppend k v => with_reply RpValue (mem_append e s k v)
  | KDecrement k t => with_reply RpValue (mem_decrement e s k t)
  | KDecrementBy k v => with_reply RpValue (mem_decrement_by e s k v)
  | KDelete k => with_reply RpBytes (mem_delete e s k)
  | KEcho b => with_reply RpItems (mem_echo e s b)
  | KExists l => with_reply RpBool (mem_exists e s l)
  | KGet k => with_reply RpValue (mem_get e s k)
  | KIncrement k t => with_reply RpValue (mem_increment e s k t)
  | KIncrementBy k v => with_reply RpValue (mem_increment_by e s k v)
  | KIs t l => with_reply RpBool (mem_is e s t l)
  | KKeyType k => with_reply RpType (mem_key_type e s k)
  | KKeys k => with_reply RpItems (mem_keys e s k)
  | KLength k t => with_reply RpInt (mem_length e s k t)
  | KRename a b => with_reply RpBytes (mem_rename e s a b)
  | KSet k v => with_reply RpValue (mem_set e s k v)
  | KStats => with_reply (fun d => RpStats (stats_commands_successful d) (stats_commands_errored d)
                                  (stats_sessions_started d) (stats_sessions_ended d))
                (mem_stats e s)
  | KGetTyped k t => with_reply RpValue (get_typed e s k t)
  | KSetTyped k v => with_reply RpValue (set_typed e s k v)
  | KAppendTyped k v => with_reply RpValue (append_typed e s k v)
  | KIncrementInt k n => with_reply RpValue (increment_int e s k n)
  | KIncrementFloat k x => with_reply RpValue (increment_float e s k x)
  | KDecrementInt k n => with_reply RpValue (decrement_int e s k n)
  | KDecrementFloat k x => with_reply RpValue (decrement_float e s k x)
  end.

(** ** The map *)

Inductive expected :=
| Returns (r : reply)
| ReturnsEach (keys : gset bytes)      (* a list of these, each once, in some order *)
| Fails (err : client_error).

Definition meets (r : client_res reply) (x : expected) : Prop :=
  match x with
  | Returns p => r = ROk p
  | ReturnsEach m => exists l, r = ROk (RpItems l) /\ l ≡ₚ elements m
  | Fails err => r = RErr err
  end.

(** Calls refused before a request is made: no argument may be empty, only bytes, lists and
    strings can be appended, only numbers added. *)
Definition is_empty (b : bytes) : bool := (lenN b =? 0)%N.
Definition refused (c : client_call) : option client_error :=
  let empty := Some (CEBuildingRequest BEArgumentEmpty) in
  let checks k (f : option client_error) := if is_empty k then empty else f in
  let append k v :=
    checks k match v with
             | VBytes b | VString b => checks b None
             | VList l => if existsb is_empty l then empty else None
             | _ => Some (CEKeyTypeUnsupported (kind v) (Some v))
             end in
  let set k v := checks k (if value_empty v then Some (CEBuildingRequest BEValueEmpty) else None) in
  let number k v := checks k (if not_number v then Some (CEKeyTypeUnsupported (kind v) (Some v))
                              else None) in
  match c with
  | KAppend k v | KAppendTyped k v => append k v
  | KSet k v | KSetTyped k v => set k v
  | KIncrementBy k v | KDecrementBy k v => number k v
  | KExists l | KIs _ l => if existsb is_empty l then empty else None
  | KRename a b => checks a (checks b None)
  | KStats => None
  | KDecrement k _ | KDelete k | KEcho k | KGet k | KIncrement k _ | KKeyType k | KKeys k
  | KLength k _ | KGetTyped k _ | KIncrementInt k _ | KIncrementFloat k _ | KDecrementInt k _
  | KDecrementFloat k _ => checks k None
  end.

Definition fails (err : dispatch_error) : expected := Fails (CERunningCommand err).

(** Numbers are added to the number at the key, a missing key counting as zero. *)
Definition add_int (k : bytes) (n : Z) (ks : keyspace) : keyspace * expected :=
  match default (VInteger 0) (ks !! k) with
  | VInteger z => (<[k := VInteger (z + n)]> ks, Returns (RpValue (VInteger (z + n))))
  | _ => (ks, fails EKeyTypeDifferent)
  end.
Definition add_float (k : bytes) (sign : Z) (x : N) (ks : keyspace) : keyspace * expected :=
  match default (VFloat f64_zero) (ks !! k) with
  | VFloat f =>
    let sum := if (sign <? 0)%Z then f64_sub f x else f64_add f x in
    (<[k := VFloat sum]> ks, Returns (RpValue (VFloat sum)))
  | _ => (ks, fails EKeyTypeDifferent)
  end.
Definition add_number (k : bytes) (sign : Z) (v : value) (ks : keyspace) : keyspace * expected :=
  match v with
  | VInteger n => add_int k (sign * n) ks
  | VFloat x => add_float k sign x ks
  | _ => (ks, fails EKeyTypeDifferent)
  end.

Definition joined (old new : value) : option value :=
  match old, new with
  | VBytes a, VBytes b => Some (VBytes (a ++ b))
  | VList a, VList b => Some (VList (a ++ b))
  | VString a, VString b => Some (VString (a ++ b))
  | _, _ => None
  end.

Definition the_one (t : option key_type) : value :=
  if decide (t = Some KTFloat) then VFloat f64_one else VInteger 1.

(** The effect and the answer of a call that is not refused. *)
Definition act (successful errored : N) (c : client_call) (ks : keyspace) : keyspace * expected :=
  let store k v := (<[k := v]> ks, Returns (RpValue v)) in
  let append k v :=
    match ks !! k with
    | None => store k v
    | Some old =>
      match joined old v with
      | Some new => store k new
      | None => (ks, fails EKeyTypeDifferent)
      end
    end in
  let at_key k (f : value -> expected) :=
    (ks, match ks !! k with Some v => f v | None => fails EKeyNonexistent end) in
  match c with
  | KSet k v | KSetTyped k v => store k v
  | KGet k | KGetTyped k _ => at_key k (fun v => Returns (RpValue v))
  | KAppend k v | KAppendTyped k v => append k v
  | KIncrement k t => add_number k 1 (the_one t) ks
  | KDecrement k t => add_number k (-1) (the_one t) ks
  | KIncrementBy k v => add_number k 1 v ks
  | KDecrementBy k v => add_number k (-1) v ks
  | KIncrementInt k n => add_number k 1 (VInteger (default 1%Z n)) ks
  | KDecrementInt k n => add_number k (-1) (VInteger (default 1%Z n)) ks
  | KIncrementFloat k x => add_number k 1 (VFloat (default f64_one x)) ks
  | KDecrementFloat k x => add_number k (-1) (VFloat (default f64_one x)) ks
  | KDelete k =>
    match ks !! k with
    | Some _ => (delete k ks, Returns (RpBytes k))
    | None => (ks, fails EPreconditionFailed)
    end
  | KRename a b =>
    match ks !! a, ks !! b with
    | None, _ => (ks, fails EKeyNonexistent)
    | Some _, Some _ => (ks, fails EPreconditionFailed)
    | Some v, None => (<[b := v]> (delete a ks), Returns (RpBytes b))
    end
  | KEcho b => (ks, Returns (RpItems [b]))
  | KExists [] | KIs _ [] => (ks, fails EArgumentRetrieval)
  | KExists l => (ks, Returns (RpBool (forallb (is_present ks) l)))
  | KIs t l => (ks, Returns (RpBool (forallb (has_kind ks t) l)))
  | KKeyType k => at_key k (fun v => Returns (RpType (kind v)))
  | KKeys k => at_key k (fun v => match v with
                                  | VMap m => ReturnsEach (dom m)
                                  | _ => fails EKeyTypeInvalid
                                  end)
  | KLength k (Some KTBoolean) | KLength k (Some KTFloat) | KLength k (Some KTInteger) =>
    (ks, fails EKeyTypeInvalid)
  | KLength k t =>
    at_key k (fun v =>
      if decide (t = None \/ t = Some (kind v))
      then match size_of v with
           | Some n => Returns (RpInt (Z.of_N n))
           | None => fails EKeyTypeInvalid
           end
      else fails EKeyTypeDifferent)
  | KStats => (ks, Returns (RpStats (Z.of_N successful) (Z.of_N errored) 0 0))
  end.

(** The map with the number of calls that returned a value and of those that failed after having
    been sent. *)
Record ideal := Ideal { i_keys : keyspace; i_ok : N; i_err : N }.

Definition map_call (c : client_call) (i : ideal) : ideal * expected :=
  match refused c with
  | Some err => (i, Fails err)
  | None =>
    let '(ks, x) := act (i_ok i) (i_err i) c (i_keys i) in
    match x with
    | Fails _ => (Ideal ks (i_ok i) (i_err i + 1), x)
    | _ => (Ideal ks (i_ok i + 1) (i_err i), x)
    end
  end.

Definition ideal_new : ideal := Ideal ∅ 0 0.

(** ** The limits *)

(** A value that can be sent and answered: it fits the response format and is not one of the
    empty values of C14. *)
Definition sound (v : value) : Prop :=
  value_wf v /\ within_limits (RValue v) /\ v <> VBytes [] /\ v <> VList [] /\ v <> VSet ∅.
Definition all_sound (ks : keyspace) : Prop :=
  forall k v, ks !! k = Some v -> sound v /\ v <> VMap ∅.

(** The number of arguments of the request, the keys it names, and the value it carries. *)
Definition sends (c : client_call) : N :=
  match c with
  | KAppend _ v | KAppendTyped _ v | KSet _ v | KSetTyped _ v => (1 + value_arity v)%N
  | KExists l | KIs _ l => lenN l
  | _ => 2
  end.
Definition named (c : client_call) : list bytes :=
  match c with
  | KExists l | KIs _ l => l
  | KRename a b => [a; b]
  | KStats => []
  | KAppend k _ | KAppendTyped k _ | KSet k _ | KSetTyped k _ | KIncrementBy k _
  | KDecrementBy k _ | KDecrement k _ | KDelete k | KEcho k | KGet k | KIncrement k _
  | KKeyType k | KKeys k | KLength k _ | KGetTyped k _ | KIncrementInt k _
  | KIncrementFloat k _ | KDecrementInt k _ | KDecrementFloat k _ => [k]
  end.
Definition carried (c : client_call) : option value :=
  match c with
  | KAppend _ v | KAppendTyped _ v | KSet _ v | KSetTyped _ v | KIncrementBy _ v
  | KDecrementBy _ v => Some v
  | KIncrementInt _ n | KDecrementInt _ n => Some (VInteger (default 1%Z n))
  | KIncrementFloat _ x | KDecrementFloat _ x => Some (VFloat (default f64_one x))
  | _ => None
  end.

(** Commands that are refused on keys starting with [__hop__:] (by a panic). *)
Definition refuses_reserved (c : client_call) : bool :=
  match c with
  | KDelete _ | KEcho _ | KExists _ | KIs _ _ | KKeyType _ | KRename _ _ | KStats => false
  | _ => true
  end.

(** An addition that does not overflow. *)
Definition adds (c : client_call) : option (bytes * Z) :=
  match c with
  | KIncrement k _ => Some (k, 1%Z)
  | KDecrement k _ => Some (k, (-1)%Z)
  | KIncrementBy k (VInteger n) => Some (k, n)
  | KDecrementBy k (VInteger n) => Some (k, (- n)%Z)
  | KIncrementInt k n => Some (k, default 1%Z n)
  | KDecrementInt k n => Some (k, (- default 1%Z n)%Z)
  | _ => None
  end.
Definition in_range (c : client_call) (ks : keyspace) : Prop :=
  forall k n, adds c = Some (k, n) ->
  i64_range n /\ forall z, default (VInteger 0) (ks !! k) = VInteger z -> i64_range (z + n).

(** The calls for which the client does what the map does: no amount is a float, the float steps
    are made on existing keys, and typed reads ask for the right type. *)
Definition regular (c : client_call) (ks : keyspace) : Prop :=
  match c with
  | KIncrementBy _ (VFloat _) | KDecrementBy _ (VFloat _) | KIncrementFloat _ _
  | KDecrementFloat _ _ => False
  | KIncrement k (Some KTFloat) | KDecrement k (Some KTFloat) => is_Some (ks !! k)
  | KGetTyped k t => forall v, ks !! k = Some v -> kind v = t
  | _ => True
  end.

Definition within (c : client_call) (i : ideal) : Prop :=
  (sends c <= 255)%N /\
  Forall (fun k => (lenN k < 2 ^ 32 - 16)%N) (named c) /\
  (refuses_reserved c = true -> Forall (fun k => ~ reserved k) (named c)) /\
  (forall v, carried c = Some v -> value_wf v) /\
  in_range c (i_keys i) /\
  all_sound (i_keys (map_call c i).1).

(** ** Histories on one memory client *)

Fixpoint mem_calls (h : list (env * client_call)) (s : store) : store * list (client_res reply) :=
  match h with
  | [] => (s, [])
  | (e, c) :: h =>
    let '(s, r) := mem_call e s c in
    let '(s, rs) := mem_calls h s in
    (s, r :: rs)
  end.

Fixpoint map_calls (h : list (env * client_call)) (i : ideal) : ideal * list expected :=
  match h with
  | [] => (i, [])
  | (_, c) :: h =>
    let '(i, x) := map_call c i in
    let '(i, xs) := map_calls h i in
    (i, x :: xs)
  end.

(** Every call is within the limits, and regular, on the map as it then is. *)
Fixpoint all_within (h : list (env * client_call)) (i : ideal) : Prop :=
  match h with
  | [] => True
  | (e, c) :: h =>
    env_ok e /\ within c i /\ regular c (i_keys i) /\ all_within h (map_call c i).1
  end.

(** ** C43 *)

Definition comes_back {A} (r : client_res A) : Prop :=
  match r with ROk _ | RErr _ => True | RPanic | RNever => False end.

(** The amount an addition of integers adds; the amount of a float addition is read as one. *)
Definition amount (c : client_call) : option (bytes * Z) :=
  match c with
  | KIncrementBy k (VFloat x) => Some (k, i64_of_u64 x)
  | KDecrementBy k (VFloat x) => Some (k, (- i64_of_u64 x)%Z)
  | KIncrementFloat k x => Some (k, i64_of_u64 (default f64_one x))
  | KDecrementFloat k x => Some (k, (- i64_of_u64 (default f64_one x))%Z)
  | KIncrement k (Some KTFloat) | KDecrement k (Some KTFloat) => None
  | _ => adds c
  end.

(** Arguments that are fine, given the keys there are. *)
Definition valid (c : client_call) (ks : keyspace) : Prop :=
  (sends c <= 255)%N /\
  Forall (fun k => (lenN k < 2 ^ 32 - 16)%N) (named c) /\
  (refuses_reserved c = true -> Forall (fun k => ~ reserved k) (named c)) /\
  (forall v, carried c = Some v -> value_wf v) /\
  all_sound (act 0 0 c ks).1.

(** No integer overflow. *)
Definition adds_up (c : client_call) (ks : keyspace) : Prop :=
  forall k n, amount c = Some (k, n) ->
  i64_range n /\ forall z, default (VInteger 0) (ks !! k) = VInteger z -> i64_range (z + n).

(** Typed calls are made on keys of their type; the float additions only where they fail. *)
Definition right_kind (c : client_call) (ks : keyspace) : Prop :=
  match c with
  | KGetTyped k t => forall v, ks !! k = Some v -> kind v = t
  | KIncrementFloat k _ | KDecrementFloat k _ =>
    k <> [] -> exists v, ks !! k = Some v /\ kind v <> KTInteger
  | _ => True
  end.

(** ** C44 *)

(** The call on a client of a server: the bytes it writes to the connection and its result. *)
Definition with_reply_to {A} (f : A -> reply) (r : bytes * client_res A)
  : bytes * client_res reply := (r.1, rbind r.2 (fun a => ROk (f a))).
Definition to_kind (t : key_type) (r : bytes * client_res value) : bytes * client_res value :=
  (r.1, rbind r.2 (of_kind t)).
Definition srv_call (e : env) (n : network) (c : client_call) : bytes * client_res reply :=
  match c with
  | KAppend k v => with_reply_to RpValue (srv_append e n k v)
  | KDecrement k t => with_reply_to RpValue (srv_decrement e n k t)
  | KDecrementBy k v => with_reply_to RpValue (srv_decrement_by e n k v)
  | KDelete k => with_reply_to RpBytes (srv_delete e n k)
  | KEcho b => with_reply_to RpItems (srv_echo e n b)
  | KExists l => with_reply_to RpBool (srv_exists e n l)
  | KGet k => with_reply_to RpValue (srv_get e n k)
  | KIncrement k t => with_reply_to RpValue (srv_increment e n k t)
  | KIncrementBy k v => with_reply_to RpValue (srv_increment_by e n k v)
  | KIs t l => with_reply_to RpBool (srv_is e n t l)
  | KKeyType k => with_reply_to RpType (srv_key_type e n k)
  | KKeys k => with_reply_to RpItems (srv_keys e n k)
  | KLength k t => with_reply_to RpInt (srv_length e n k t)
  | KRename a b => with_reply_to RpBytes (srv_rename e n a b)
  | KSet k v => with_reply_to RpValue (srv_set e n k v)
  | KStats => with_reply_to
                (fun d => RpStats (stats_commands_successful d) (stats_commands_errored d)
                            (stats_sessions_started d) (stats_sessions_ended d))
                (srv_stats e n)
  | KGetTyped k t => with_reply_to RpValue (to_kind t (srv_get e n k))
  | KSetTyped k v => with_reply_to RpValue (to_kind (kind v) (srv_set e n k v))
  | KAppendTyped k v => with_reply_to RpValue (to_kind (kind v) (srv_append e n k v))
  | KIncrementInt k x => with_reply_to RpValue (to_kind KTInteger
      (srv_increment_by e n k (VInteger (default 1%Z x))))
  | KIncrementFloat k x => with_reply_to RpValue (to_kind KTFloat
      (srv_increment_by e n k (VFloat (default f64_one x))))
  | KDecrementInt k x => with_reply_to RpValue (to_kind KTInteger
      (srv_decrement_by e n k (VInteger (default 1%Z x))))
  | KDecrementFloat k x => with_reply_to RpValue (to_kind KTFloat
      (srv_decrement_by e n k (VFloat (default f64_one x))))
  end.

(** The command, the key type and the arguments a call stands for. *)
Definition request_of (e : env) (c : client_call) : command_id * option key_type * list bytes :=
  match c with
  | KAppend k v | KAppendTyped k v => (CAppend, Some (kind v), k :: value_args e v)
  | KSet k v | KSetTyped k v => (CSet, Some (kind v), k :: value_args e v)
  | KIncrementBy k v => (CIncrementBy, Some (kind v), k :: value_args e v)
  | KDecrementBy k v => (CDecrementBy, Some (kind v), k :: value_args e v)
  | KIncrementInt k n => (CIncrementBy, Some KTInteger, [k; i64_enc (default 1%Z n)])
  | KDecrementInt k n => (CDecrementBy, Some KTInteger, [k; i64_enc (default 1%Z n)])
  | KIncrementFloat k x => (CIncrementBy, Some KTFloat, [k; be_enc 8 (default f64_one x)])
  | KDecrementFloat k x => (CDecrementBy, Some KTFloat, [k; be_enc 8 (default f64_one x)])
  | KIncrement k t => (CIncrement, t, [k])
  | KDecrement k t => (CDecrement, t, [k])
  | KDelete k => (CDelete, None, [k])
  | KEcho b => (CEcho, None, [b])
  | KExists l => (CExists, None, l)
  | KGet k | KGetTyped k _ => (CGet, None, [k])
  | KIs t l => (CIs, Some t, l)
  | KKeyType k => (CType, None, [k])
  | KKeys k => (CKeys, None, [k])
  | KLength k t => (CLength, t, [k])
  | KRename a b => (CRename, None, [a; b])
  | KStats => (CStats, None, [])
  end.

(** Its bytes on the wire. *)
Definition wire_call (e : env) (c : client_call) : bytes :=
  let '(cmd, kt, l) := request_of e c in
  match cmd with
  | CStats => [n2b (command_id_to_u8 CStats)]
  | _ => wire_request cmd kt l
  end.
