(** Vocabulary for statements about single dispatches and histories of them. *)
From Coq Require Import String.
From Verif Require Import Bytes Utf8 Utf8Spec Float64 Value CommandId Request Response RespContext Prog Commands
  Session Metrics EngineSpec WireSpec RequestSpec.
From stdpp Require Import gmap list.
From Coq Require Import NArith ZArith.

(** The request [req] is: command [c] with key type [kt] and arguments [l]. *)
Definition asks (req : request) (c : command_id) (kt : option key_type) (l : list bytes)
  : Prop :=
  r_command req = c /\ r_key_type req = kt /\ carries req l.

(** The commands that only read. *)
Definition read_only (c : command_id) : bool :=
  match c with
  | CGet | CExists | CIs | CType | CLength | CKeys | CEcho | CStats => true
  | _ => false
  end.

(** The keys a request names: its first argument, and for Rename its second. *)
Definition names (req : request) (k : bytes) : Prop :=
  arg req 0 = Some k \/ (r_command req = CRename /\ arg req 1 = Some k).

(** Commands that refuse reserved keys (by crashing). *)
Definition guarded_command (c : command_id) : bool :=
  match c with
  | CAppend | CDecrement | CDecrementBy | CGet | CIncrement | CIncrementBy | CKeys
  | CLength | CSet => true
  | _ => false
  end.

Definition reserved (k : bytes) : Prop := exists r, k = lit "__hop__:"%string ++ r.

(** Every stored value has the shape its type promises. *)
Definition well_typed (ks : keyspace) : Prop :=
  forall k v, ks !! k = Some v -> value_wf v.

(** [cr] is the outcome of a command that answers the value [v] into the buffer
    [res]: it appends to [res] a message which, if [v] fits the response format, any
    response parser decodes to [v] (but for the empty values of C14; [value_wf] is what
    Rust's types say of [v], for instance that an integer has 64 bits).  Only a debug
    build may crash instead, and only if [v] does not fit. *)
Definition responds (e : env) (res : bytes) (v : value) (cr : cres) : Prop :=
  (exists msg, cr = COk (res ++ msg) /\
   (within_limits (RValue v) ->
    forall dbg, value_wf v -> undecodable_empty dbg (RValue v) = false ->
    resp_feed dbg resp_ctx_new msg = (resp_ctx_new, PConcluded (RValue v)))) \/
  (debug e = true /\ ~ within_limits (RValue v) /\ cr = CPanic).

(** The outcome [cr] is the specification's answer [a]. *)
Definition answered (e : env) (res : bytes) (a : answer) (cr : cres) : Prop :=
  match a with
  | AVal v => responds e res v cr
  | AKeys ks => exists l, l ≡ₚ elements ks /\ responds e res (VList l) cr
  | AErr err => cr = CErr err res
  | ACrash => cr = CPanic
  end.

(** One call of a history: the build profile and iteration order, the request, and
    what is already in the response buffer. *)
Record call := Call { c_env : env; c_req : request; c_res : bytes }.

(** A history on one engine: the final state and the outcomes. *)
Fixpoint run_calls (h : list call) (s : store) : store * list cres :=
  match h with
  | [] => (s, [])
  | c :: h =>
    let '(s, r) := dispatch (c_env c) s (c_req c) (c_res c) in
    let '(s, rs) := run_calls h s in
    (s, r :: rs)
  end.

(** The same history on the specification; [args] are the argument lists of the
    requests. *)
Fixpoint spec_calls (h : list call) (args : list (list bytes)) (s : sstate)
  : sstate * list answer :=
  match h, args with
  | c :: h, l :: args =>
    let '(s, a) := spec_dispatch (debug (c_env c)) (r_command (c_req c))
                     (r_key_type (c_req c)) l s in
    let '(s, rs) := spec_calls h args s in
    (s, a :: rs)
  | _, _ => (s, [])
  end.

Definition sstate_new : sstate := SState ∅ 0 0 0.

(** How often a counter was incremented. *)
Definition count (s : store) (m : metric) : N := default 0%N (st_counters s !! m).

(** No counter is about to overflow its 64 bits. *)
Definition room (s : store) : Prop := forall m, (count s m < 2 ^ 64 - 1)%N.

Definition is_ok (r : cres) : bool := match r with COk _ => true | _ => false end.
Definition is_err (r : cres) : bool := match r with CErr _ _ => true | _ => false end.

(** A key that no command refuses. *)
Definition ordinary (k : bytes) : Prop := k <> [] /\ ~ reserved k.

(** The arguments [l] spell the value [v]: what a client sends after the key. *)
Definition spells (v : value) (l : list bytes) : Prop :=
  match v with
  | VBoolean b => l = [[n2b (if b then 1 else 0)%N]]
  | VBytes b => l = [b]
  | VFloat n => l = [be_enc 8 n]
  | VInteger z => l = [i64_enc z]
  | VString s => l = [s]
  | VList items => l = items
  | VMap m => exists ps, ps ≡ₚ map_to_list m /\ l = flatten_pairs ps
  | VSet s => l ≡ₚ elements s
  end.

(** The key type a command acts on: the requested one, else that of the stored value,
    else [d]. *)
Definition acts_on (s : store) (kt : option key_type) (k : bytes) (d t : key_type) : Prop :=
  kt = Some t \/
  (kt = None /\ exists v, st_keys s !! k = Some v /\ kind v = t) \/
  (kt = None /\ st_keys s !! k = None /\ t = d).

(** The request changes the integer at [k] by [n]; only the first eight bytes of an
    amount are looked at. *)
Definition changes_int (c : command_id) (kt : option key_type) (l : list bytes) (k : bytes)
  (n : Z) : Prop :=
  (c = CIncrement /\ kt <> Some KTFloat /\ (exists r, l = k :: r) /\ n = 1%Z) \/
  (c = CDecrement /\ kt <> Some KTFloat /\ (exists r, l = k :: r) /\ n = (-1)%Z) \/
  (exists z x r, l = k :: (i64_enc z ++ x) :: r /\ i64_range z /\
    ((c = CIncrementBy /\ n = z) \/ (c = CDecrementBy /\ n = (- z)%Z))).

(** The value with the arguments appended; for strings all of them must be UTF-8. *)
Definition append_to (v : value) (l : list bytes) : option value :=
  match v with
  | VBytes b => Some (VBytes (b ++ concat l))
  | VList b => Some (VList (b ++ l))
  | VString b => if forallb utf8_valid l then Some (VString (b ++ concat l)) else None
  | _ => None
  end.

(** The value an append starts from: the stored one, or an empty one of kind [t]. *)
Definition append_base (s : store) (k : bytes) (t : key_type) (v : value) : Prop :=
  kind v = t /\
  (st_keys s !! k = Some v \/
   (st_keys s !! k = None /\ (v = VBytes [] \/ v = VList [] \/ v = VString []))).

(** The size of a value as the user sees it: bytes, items, entries, characters. *)
Definition has_size (v : value) (n : N) : Prop :=
  match v with
  | VBytes b => n = lenN b
  | VList l => n = lenN l
  | VMap m => n = N.of_nat (size m)
  | VSet x => n = N.of_nat (size x)
  | VString b => exists cs, spells_chars cs b /\ n = lenN cs
  | _ => False
  end.

(** The one command that changes the store and then reports an error. *)
Definition float_step (req : request) : Prop :=
  (r_command req = CIncrement \/ r_command req = CDecrement) /\
  r_key_type req = Some KTFloat.

(** The integer at a key, a missing key counting as zero. *)
Definition int_at (s : store) (k : bytes) (z : Z) : Prop :=
  st_keys s !! k = Some (VInteger z) \/ (st_keys s !! k = None /\ z = 0%Z).

(** The amount of a float step. *)
Definition float_amount (c : command_id) (x : N) : Prop :=
  (c = CIncrement /\ x = f64_one) \/ (c = CDecrement /\ x = f64_minus_one).

(** An amount that overflows: it cannot be negated, or the sum does not fit. *)
Definition overflows (ks : keyspace) (k : bytes) (n : Z) : Prop :=
  ~ i64_range n \/
  exists z, default (VInteger 0) (ks !! k) = VInteger z /\ ~ i64_range (z + n).

(** The value the specification answers does not fit the response format. *)
Definition too_large (a : answer) : Prop :=
  match a with
  | AVal v => ~ within_limits (RValue v)
  | AKeys m => exists l, l ≡ₚ elements m /\ ~ within_limits (RValue (VList l))
  | _ => False
  end.

(** ** Histories with sessions *)

(** An event in the life of an engine: a request, or the start or end of a session. *)
Inductive event :=
| EvCall (c : call)
| EvSessionAdd (token : bytes)
| EvSessionRemove (id : N).

(** What an event returned. *)
Inductive result :=
| ROutcome (r : cres)
| RSession (id : option N)        (* the id of the new session; [None]: a panic *)
| RRemoved (b : bool).

Fixpoint run_events (dbg : bool) (h : list event) (s : store) (m : sessions)
  : store * sessions * list result :=
  match h with
  | [] => (s, m, [])
  | ev :: h =>
    let '(s, m, r) :=
      match ev with
      | EvCall c => let '(s, r) := dispatch (c_env c) s (c_req c) (c_res c) in (s, m, ROutcome r)
      | EvSessionAdd t =>
        let '(m, cs, id) := session_add dbg m (st_counters s) t in
        (Store (st_keys s) cs, m, RSession id)
      | EvSessionRemove id => let '(m, b) := session_remove m id in (s, m, RRemoved b)
      end in
    let '(s, m, rs) := run_events dbg h s m in
    (s, m, r :: rs)
  end.

Definition ok_result (r : result) : bool := match r with ROutcome (COk _) => true | _ => false end.
Definition err_result (r : result) : bool :=
  match r with ROutcome (CErr _ _) => true | _ => false end.
Definition session_result (r : result) : bool :=
  match r with RSession (Some _) => true | _ => false end.

(** The number of results of a sort. *)
Definition how_many (f : result -> bool) (rs : list result) : N :=
  lenN (filter (fun r => f r = true) rs).

(** The statistics a client reads: a name is listed with its count unless the count is
    zero. *)
Definition stats_are (m : gmap bytes bytes) (ok err sessions : N) : Prop :=
  let listed (n : N) := if (n =? 0)%N then None else Some (i64_enc (Z.of_N n)) in
  m !! lit "commands_successful"%string = listed ok /\
  m !! lit "commands_errored"%string = listed err /\
  m !! lit "sessions_started"%string = listed sessions /\
  forall k, is_Some (m !! k) ->
    k = lit "commands_successful"%string \/ k = lit "commands_errored"%string \/
    k = lit "sessions_started"%string.

(** ** For examples *)

(** The request a client builds. *)
Definition a_request (c : command_id) (kt : option key_type) (l : list bytes) : request :=
  match builder_chain (env_std false) (builder_new_kt c kt) (map CallBytes l) with
  | Ok (b, _) => into_request b
  | Panic => into_request (builder_new c)
  end.

(** A store with the given keys and no statistics. *)
Definition store_of (l : list (bytes * value)) : store := Store (list_to_map l) ∅.

(** What a client decodes from a fresh buffer. *)
Definition decoded (cr : cres) : option resp_feed_res :=
  match cr with COk b => Some (resp_feed false resp_ctx_new b).2 | _ => None end.
