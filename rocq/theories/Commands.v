(** The commands, engine/src/command/impl/*.rs, and [Hop::dispatch],
    engine/src/hop.rs.

    Each command takes the request and the response buffer [res] it appends
    to. *)
From Verif Require Import Bytes Utf8 Float64 Value CommandId Request Response
  Metrics Prog.
From stdpp Require Import gmap list.
From Coq Require Import NArith ZArith.

(** [return Err(err)]; e.g. engine/src/command/impl/set.rs:131. *)
Definition fail (res : bytes) (err : dispatch_error) : prog := PRet (CErr err res).

(** [req.key_type().or_else(|| hop.state().key_type(key)).unwrap_or(dflt)],
    engine/src/command/impl/append.rs:64-67, keys.rs:25-28, length.rs:72-75,
    set.rs:134-137 *)
Definition resolve_type (req : request) (k : bytes) (dflt : key_type)
  (cont : key_type -> prog) : prog :=
  match r_key_type req with
  | Some kt => cont kt
  | None =>
    PGet k (fun v => cont (match v with Some v => kind v | None => dflt end))
  end.

(** An update that fails with [KeyTypeDifferent] on another variant:
    [key.as_*_mut().ok_or(KeyTypeDifferent)?];
    e.g. engine/src/command/impl/append.rs:17,30,46, increment_by.rs:15,31-33. *)
Definition with_variant {A} (res : bytes) (as_ : value -> option A) (v : value)
  (f : A -> value * cres) : value * cres :=
  match as_ v with
  | Some a => f a
  | None => (v, CErr EKeyTypeDifferent res)
  end.

(** *** Append *)

(** [Append::bytes], engine/src/command/impl/append.rs:15-26 *)
Definition append_bytes (e : env) (a : arguments) (res k : bytes) : prog :=
  key_or_insert_with e k value_bytes (fun v =>
  with_variant res as_bytes v (fun bs =>
  let bs := bs ++ concat (arguments_collect a) in
  (VBytes bs, cres_of (write_bytes e res bs)))).

(** [Append::list], engine/src/command/impl/append.rs:28-37 *)
Definition append_list (e : env) (a : arguments) (res k : bytes) : prog :=
  key_or_insert_with e k value_list (fun v =>
  with_variant res as_list v (fun l =>
  let l := l ++ arguments_collect a in
  (VList l, cres_of (write_list e res l)))).

(** The loop of [Append::string], engine/src/command/impl/append.rs:48-52:
    arguments that are not UTF-8 are skipped. *)
Definition push_valid (s : bytes) (l : list bytes) : bytes :=
  fold_left (fun s a => match from_utf8 a with Some a => s ++ a | None => s end)
            l s.

(** [Append::string], engine/src/command/impl/append.rs:39-57 *)
Definition append_string (e : env) (a : arguments) (res k : bytes) : prog :=
  key_or_insert_with e k value_string (fun v =>
  with_variant res as_string v (fun s =>
  let s := push_valid s (arguments_collect a) in
  (VString s, cres_of (write_str e res s)))).

(** [Append::dispatch], engine/src/command/impl/append.rs:60-76 *)
Definition cmd_append (e : env) (req : request) (res : bytes) : prog :=
  match arg req 0 with
  | None => fail res EKeyUnspecified
  | Some k =>
    match args_from req 1 with
    | None => fail res EArgumentRetrieval
    | Some a =>
      resolve_type req k KTBytes (fun kt =>
      match kt with
      | KTBytes => append_bytes e a res k
      | KTList => append_list e a res k
      | KTString => append_string e a res k
      | _ => fail res EKeyTypeDifferent
      end)
    end
  end.

(** *** Increment and decrement *)

(** [IncrementBy::increment_float_by],
    engine/src/command/impl/increment_by.rs:8-22; the default inserted for a
    missing key is [Value::integer]. *)
Definition increment_float_by (e : env) (k : bytes) (amount : N) (res : bytes)
  : prog :=
  key_or_insert_with e k value_integer (fun v =>
  with_variant res as_float v (fun f =>
  let f := f64_add f amount in
  (VFloat f, COk (write_float res f)))).

(** [IncrementBy::increment_int_by],
    engine/src/command/impl/increment_by.rs:24-40 *)
Definition increment_int_by (e : env) (k : bytes) (amount : Z) (res : bytes)
  : prog :=
  key_or_insert_with e k value_integer (fun v =>
  with_variant res as_integer v (fun z =>
  match i64_checked (debug e) (z + amount)%Z with
  | Ok z' => (VInteger z', COk (write_int res z'))
  | Panic => (VInteger z, CPanic)
  end)).

(** [IncrementBy::dispatch], engine/src/command/impl/increment_by.rs:43-55 *)
Definition cmd_increment_by (e : env) (req : request) (res : bytes) : prog :=
  match key req with
  | None => fail res EKeyUnspecified
  | Some k =>
    match typed_arg convert_i64 req 1 with
    | Some z => increment_int_by e k z res
    | None =>
      match typed_arg convert_f64 req 1 with
      | Some f => increment_float_by e k f res
      | None => fail res EArgumentRetrieval
      end
    end
  end.

(** [DecrementBy::dispatch], engine/src/command/impl/decrement_by.rs:10-22;
    [0 - int] may overflow. *)
Definition cmd_decrement_by (e : env) (req : request) (res : bytes) : prog :=
  match key req with
  | None => fail res EKeyUnspecified
  | Some k =>
    match typed_arg convert_i64 req 1 with
    | Some z =>
      match i64_checked (debug e) (0 - z)%Z with
      | Ok z' => increment_int_by e k z' res
      | Panic => PRet CPanic
      end
    | None =>
      match typed_arg convert_f64 req 1 with
      | Some f => increment_float_by e k (f64_sub f64_zero f) res
      | None => fail res EArgumentRetrieval
      end
    end
  end.

(** [req.key_type() == Some(KeyType::Float)];
    engine/src/command/impl/increment.rs:14, decrement.rs:14. *)
Definition wants_float (req : request) : bool :=
  match r_key_type req with Some KTFloat => true | _ => false end.

(** [Increment::dispatch], engine/src/command/impl/increment.rs:10-20 *)
Definition cmd_increment (e : env) (req : request) (res : bytes) : prog :=
  match key req with
  | None => fail res EKeyUnspecified
  | Some k =>
    if wants_float req then increment_float_by e k f64_one res
    else increment_int_by e k 1 res
  end.

(** [Decrement::dispatch], engine/src/command/impl/decrement.rs:10-20 *)
Definition cmd_decrement (e : env) (req : request) (res : bytes) : prog :=
  match key req with
  | None => fail res EKeyUnspecified
  | Some k =>
    if wants_float req then increment_float_by e k f64_minus_one res
    else increment_int_by e k (-1) res
  end.

(** *** Delete, Echo, Exists, Get, Is, Keys *)

(** [Delete::dispatch], engine/src/command/impl/delete.rs:7-24 *)
Definition cmd_delete (e : env) (req : request) (res : bytes) : prog :=
  match r_key_type req with
  | Some _ => fail res EKeyTypeUnexpected
  | None =>
    match key req with
    | None => fail res EKeyUnspecified
    | Some k =>
      PRemove k (fun v =>
      match v with
      | None => fail res EPreconditionFailed
      | Some _ => PRet (cres_of (copy_to e (RValue (VBytes k)) res))
      end)
    end
  end.

(** [Echo::dispatch], engine/src/command/impl/echo.rs:7-20 *)
Definition cmd_echo (e : env) (req : request) (res : bytes) : prog :=
  match args_all req with
  | Some a => PRet (cres_of (write_list e res (arguments_collect a)))
  | None => PRet (cres_of (write_list e res []))
  end.

(** [args.all(|key| hop.state().contains_key(key))],
    engine/src/command/impl/exists.rs:15 *)
Fixpoint all_exist (l : list bytes) (cont : bool -> prog) : prog :=
  match l with
  | [] => cont true
  | k :: r => PContains k (fun b => if b then all_exist r cont else cont false)
  end.

(** [Exists::dispatch], engine/src/command/impl/exists.rs:7-21 *)
Definition cmd_exists (e : env) (req : request) (res : bytes) : prog :=
  match r_key_type req with
  | Some _ => fail res EKeyTypeUnexpected
  | None =>
    match args_all req with
    | None => fail res EArgumentRetrieval
    | Some a =>
      all_exist (arguments_collect a) (fun b => PRet (COk (write_bool res b)))
    end
  end.

(** [Get::dispatch], engine/src/command/impl/get.rs:9-27 *)
Definition cmd_get (e : env) (req : request) (res : bytes) : prog :=
  match key req with
  | None => fail res EKeyUnspecified
  | Some k =>
    key_ref e k (fun v =>
    match v with
    | None => fail res EKeyNonexistent
    | Some v =>
      match r_key_type req with
      | Some kt =>
        if decide (kind v = kt) then PRet (cres_of (write_value e res v))
        else fail res EKeyTypeDifferent
      | None => PRet (cres_of (write_value e res v))
      end
    end)
  end.

(** [args.all(|key| state.key_type(key) == Some(key_type))],
    engine/src/command/impl/is.rs:14-19 *)
Fixpoint all_are (kt : key_type) (l : list bytes) (cont : bool -> prog) : prog :=
  match l with
  | [] => cont true
  | k :: r =>
    PGet k (fun v =>
    if match v with Some v => bool_decide (kind v = kt) | None => false end
    then all_are kt r cont else cont false)
  end.

(** [Is::dispatch], engine/src/command/impl/is.rs:7-25 *)
Definition cmd_is (e : env) (req : request) (res : bytes) : prog :=
  match r_key_type req with
  | None => fail res EKeyTypeRequired
  | Some kt =>
    match args_all req with
    | None => fail res EArgumentRetrieval
    | Some a =>
      all_are kt (arguments_collect a) (fun b => PRet (COk (write_bool res b)))
    end
  end.

(** A read through [key_ref] of one variant:
    [key_ref(key).ok_or(KeyNonexistent)?.as_*_ref().ok_or(KeyTypeDifferent)?];
    engine/src/command/impl/length.rs:8-66, keys.rs:8-19. *)
Definition read_variant {A} (e : env) (res k : bytes) (as_ : value -> option A)
  (cont : A -> cres) : prog :=
  key_ref e k (fun v =>
  match v with
  | None => fail res EKeyNonexistent
  | Some v =>
    match as_ v with
    | None => fail res EKeyTypeDifferent
    | Some a => PRet (cont a)
    end
  end).

(** [Keys::dispatch] and [Keys::map], engine/src/command/impl/keys.rs:7-35 *)
Definition cmd_keys (e : env) (req : request) (res : bytes) : prog :=
  match key req with
  | None => fail res EKeyUnspecified
  | Some k =>
    resolve_type req k KTMap (fun kt =>
    match kt with
    | KTMap =>
      read_variant e res k as_map (fun m =>
      cres_of (write_list e res (map fst (map_iter e m))))
    | _ => fail res EKeyTypeInvalid
    end)
  end.

(** *** Length *)

(** [Length::dispatch] and its five readers,
    engine/src/command/impl/length.rs:7-86.  The lengths are cast to [i64] and
    written as 8 bytes: [write_int] reduces modulo 2^64. *)
Definition cmd_length (e : env) (req : request) (res : bytes) : prog :=
  match key req with
  | None => fail res EKeyUnspecified
  | Some k =>
    resolve_type req k KTBytes (fun kt =>
    let out (n : N) := COk (write_int res (Z.of_N n)) in
    match kt with
    | KTBytes => read_variant e res k as_bytes (fun bs => out (lenN bs))
    | KTList => read_variant e res k as_list (fun l => out (lenN l))
    | KTMap => read_variant e res k as_map (fun m => out (N.of_nat (size m)))
    | KTSet => read_variant e res k as_set (fun s => out (N.of_nat (size s)))
    | KTString => read_variant e res k as_string (fun s => out (char_count s))
    | _ => fail res EKeyTypeInvalid
    end)
  end.

(** *** Rename *)

(** [Rename::dispatch], engine/src/command/impl/rename.rs:7-32 *)
Definition cmd_rename (e : env) (req : request) (res : bytes) : prog :=
  match r_key_type req with
  | Some _ => fail res EKeyTypeUnexpected
  | None =>
    match arg req 0 with
    | None => fail res EKeyUnspecified
    | Some k =>
      match arg req 1 with
      | None => fail res EArgumentRetrieval
      | Some a =>
        PContains k (fun b =>
        if b then
          PContains a (fun b =>
          if b then fail res EPreconditionFailed
          else
            PRemove k (fun v =>
            match v with
            | None => fail res EKeyNonexistent
            | Some v => PInsert a v (PRet (cres_of (write_bytes e res a)))
            end))
        else fail res EKeyNonexistent)
      end
    end
  end.

(** *** Set *)

(** The common shape of the eight setters: remove the key, insert the default,
    assign under the guard, respond; engine/src/command/impl/set.rs:11-122. *)
Definition set_with {A} (e : env) (res k : bytes) (dflt : value)
  (as_ : value -> option A) (new : value) (old_kept : bool) (out : outcome bytes)
  : prog :=
  PRemove k (fun _ =>
  key_or_insert_with e k dflt (fun v =>
  with_variant res as_ v (fun _ =>
  match out with
  | Ok b => (new, COk b)
  | Panic => ((if old_kept then v else new), CPanic)
  end))).

(** [Set::boolean] 11-24, [bytes] 26-39, [float] 41-52, [integer] 54-67,
    [list] 69-81, [map] 83-94, [set] 96-107, [string] 109-122,
    engine/src/command/impl/set.rs.  The value is assigned before the response
    is written, except for maps and sets ([old_kept]). *)
Definition set_typed (e : env) (req : request) (res k : bytes) (kt : key_type)
  : prog :=
  match kt with
  | KTBytes =>
    match typed_arg Some req 1 with
    | None => fail res EArgumentRetrieval
    | Some a => set_with e res k value_bytes as_bytes (VBytes a) false
                         (write_bytes e res a)
    end
  | KTBoolean =>
    match typed_arg convert_bool req 1 with
    | None => fail res EArgumentRetrieval
    | Some a => set_with e res k value_boolean as_boolean (VBoolean a) false
                         (Ok (write_bool res a))
    end
  | KTFloat =>
    match typed_arg convert_f64 req 1 with
    | None => fail res EArgumentRetrieval
    | Some a => set_with e res k value_float as_float (VFloat a) false
                         (Ok (write_float res a))
    end
  | KTInteger =>
    match typed_arg convert_i64 req 1 with
    | None => fail res EArgumentRetrieval
    | Some a => set_with e res k value_integer as_integer (VInteger a) false
                         (Ok (write_int res a))
    end
  | KTList =>
    match args_from req 1 with
    | None => fail res EArgumentRetrieval
    | Some a => set_with e res k value_list as_list (VList (arguments_collect a))
                         false (write_list e res (arguments_collect a))
    end
  | KTMap =>
    match typed_args convert_map req with
    | None => fail res EArgumentRetrieval
    | Some m => set_with e res k value_map as_map (VMap m) true (write_map e res m)
    end
  | KTSet =>
    match typed_args convert_set req with
    | None => fail res EArgumentRetrieval
    | Some s => set_with e res k value_set as_set (VSet s) true (write_set e res s)
    end
  | KTString =>
    match typed_arg convert_str req 1 with
    | None => fail res EArgumentRetrieval
    | Some a => set_with e res k value_string as_string (VString a) false
                         (write_str e res a)
    end
  end.

(** [Set::dispatch], engine/src/command/impl/set.rs:125-150 *)
Definition cmd_set (e : env) (req : request) (res : bytes) : prog :=
  match key req with
  | None => fail res EKeyUnspecified
  | Some k =>
    match arg req 1 with
    | None => fail res EArgumentRetrieval
    | Some _ => resolve_type req k KTBytes (set_typed e req res k)
    end
  end.

(** *** Stats *)

(** [Stats::COUNTERS], engine/src/command/impl/stats.rs:11-15 *)
Definition stats_counters : list metric :=
  [MCommandsErrored; MCommandsSuccessful; MSessionsStarted].

(** The loop of [Stats::dispatch], engine/src/command/impl/stats.rs:27-36 *)
Fixpoint stats_loop (l : list metric) (m : gmap bytes bytes)
  (cont : gmap bytes bytes -> prog) : prog :=
  match l with
  | [] => cont m
  | c :: r =>
    PCounter c (fun n =>
    match n with
    | Some n =>
      if (Z.of_N n <? i64_half)%Z
      then stats_loop r (<[metric_name c := i64_enc (Z.of_N n)]> m) cont
      else stats_loop r m cont
    | None => stats_loop r m cont
    end)
  end.

(** [Stats::dispatch], engine/src/command/impl/stats.rs:18-42 *)
Definition cmd_stats (e : env) (req : request) (res : bytes) : prog :=
  match r_key_type req with
  | Some _ => fail res EKeyTypeUnexpected
  | None =>
    stats_loop stats_counters ∅ (fun m => PRet (cres_of (write_map e res m)))
  end.

(** *** Type *)

(** [Type::dispatch], engine/src/command/impl/type.rs:9-26 *)
Definition cmd_type (e : env) (req : request) (res : bytes) : prog :=
  match key req with
  | None => fail res EKeyUnspecified
  | Some k =>
    match r_key_type req with
    | Some _ => fail res EKeyTypeUnexpected
    | None =>
      PGet k (fun v =>
      match v with
      | None => fail res EKeyNonexistent
      | Some v => PRet (COk (write_int res (Z.of_N (key_type_to_u8 (kind v)))))
      end)
    end
  end.

(** *** Dispatch *)

(** The [match] of [Hop::dispatch], engine/src/hop.rs:171-188 *)
Definition command_prog (e : env) (req : request) (res : bytes) : prog :=
  match r_command req with
  | CAppend => cmd_append e req res
  | CDecrementBy => cmd_decrement_by e req res
  | CDecrement => cmd_decrement e req res
  | CDelete => cmd_delete e req res
  | CEcho => cmd_echo e req res
  | CExists => cmd_exists e req res
  | CGet => cmd_get e req res
  | CIncrement => cmd_increment e req res
  | CIncrementBy => cmd_increment_by e req res
  | CIs => cmd_is e req res
  | CKeys => cmd_keys e req res
  | CRename => cmd_rename e req res
  | CSet => cmd_set e req res
  | CStats => cmd_stats e req res
  | CType => cmd_type e req res
  | CLength => cmd_length e req res
  end.

(** [Hop::dispatch], engine/src/hop.rs:170-197: the command, then one counter
    increment unless the command panicked. *)
Definition dispatch_prog (e : env) (req : request) (res : bytes) : prog :=
  pbind (command_prog e req res) (fun r =>
  match r with
  | COk _ => PIncr (debug e) MCommandsSuccessful (PRet r)
  | CErr _ _ => PIncr (debug e) MCommandsErrored (PRet r)
  | CPanic => PRet CPanic
  end).

(** One call of [Hop::dispatch] with nothing else running; engine/src/hop.rs:170-197. *)
Definition dispatch (e : env) (s : store) (req : request) (res : bytes)
  : store * cres :=
  run (dispatch_prog e req res) s.
