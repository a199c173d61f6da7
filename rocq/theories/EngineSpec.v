(** A short specification of the sixteen commands over a finite map.

    It knows nothing of buffers, byte positions, wire formats, atomic steps or
    iteration orders.  A request is a command, an optional key type and a list of
    arguments; an answer is a value, an error or a crash.  Deviations of the engine
    from what one would expect (a float increment that creates an integer key,
    crashes on reserved keys) are part of it and marked (!). *)
From Coq Require Import String.
From Verif Require Import Bytes Utf8 Float64 Value CommandId.
From stdpp Require Import gmap list.
From Coq Require Import NArith ZArith.
Open Scope string_scope.

Notation keyspace := (gmap bytes value).

Inductive answer :=
| AVal (v : value)
| AKeys (keys : gset bytes)        (* a list of these, each once, in some order *)
| AErr (err : dispatch_error)
| ACrash.

(** An integer or float argument: its first eight bytes. *)
Definition arg_int (a : bytes) : option Z :=
  if (8 <=? length a)%nat then Some (i64_dec (take 8 a)) else None.
Definition arg_float (a : bytes) : option N :=
  if (8 <=? length a)%nat then Some (be_dec (take 8 a)) else None.

(** Reading a value of a given type from the arguments after the key. *)
Fixpoint alternate (l : list bytes) (m : gmap bytes bytes) : gmap bytes bytes :=
  match l with
  | k :: v :: r => alternate r (<[k := v]> m)
  | _ => m
  end.

Definition value_of (t : key_type) (l : list bytes) : option value :=
  match l with
  | [] => None
  | a :: _ =>
    match t with
    | KTBoolean => match a with [] => None | b :: _ => Some (VBoolean (0 <? b2n b)%N) end
    | KTBytes => Some (VBytes a)
    | KTFloat => VFloat <$> arg_float a
    | KTInteger => VInteger <$> arg_int a
    | KTList => Some (VList l)
    | KTMap => Some (VMap (alternate l ∅))
    | KTSet => Some (VSet (list_to_set l))
    | KTString => if utf8_valid a then Some (VString a) else None
    end
  end.

(** (!) Guarded commands crash on reserved keys, and in debug builds on the empty
    key. *)
Definition bad_key (dbg : bool) (k : bytes) : bool :=
  bool_decide (take 8 k = lit "__hop__:") || (dbg && bool_decide (k = [])).

(** The requested type, else the type of the key, else a default. *)
Definition type_or (ks : keyspace) (kt : option key_type) (k : bytes) (d : key_type)
  : key_type :=
  match kt with
  | Some t => t
  | None => match ks !! k with Some v => kind v | None => d end
  end.

Definition spec_get (dbg : bool) (ks : keyspace) (kt : option key_type) (k : bytes)
  : keyspace * answer :=
  if bad_key dbg k then (ks, ACrash)
  else match ks !! k with
  | None => (ks, AErr EKeyNonexistent)
  | Some v =>
    match kt with
    | None => (ks, AVal v)
    | Some t => if decide (kind v = t) then (ks, AVal v) else (ks, AErr EKeyTypeDifferent)
    end
  end.

Definition spec_set (dbg : bool) (ks : keyspace) (kt : option key_type) (k : bytes)
  (l : list bytes) : keyspace * answer :=
  match value_of (type_or ks kt k KTBytes) l with
  | None => (ks, AErr EArgumentRetrieval)
  | Some v =>
    if bad_key dbg k then (delete k ks, ACrash) (* (!) the old value is gone *)
    else (<[k := v]> ks, AVal v)
  end.

(** In a debug build an overflow crashes, in a release build it wraps. *)
Definition spec_add_int (dbg : bool) (ks : keyspace) (k : bytes) (n : Z)
  : keyspace * answer :=
  if bad_key dbg k then (ks, ACrash)
  else match default (VInteger 0) (ks !! k) with
  | VInteger z =>
    if decide (i64_range (z + n)%Z)
    then (<[k := VInteger (z + n)]> ks, AVal (VInteger (z + n)))
    else if dbg then (ks, ACrash)
    else (<[k := VInteger (i64_wrap (z + n))]> ks, AVal (VInteger (i64_wrap (z + n))))
  | _ => (ks, AErr EKeyTypeDifferent)
  end.

Definition spec_add_float (dbg : bool) (ks : keyspace) (k : bytes) (x : N)
  : keyspace * answer :=
  if bad_key dbg k then (ks, ACrash)
  else match ks !! k with
  | None => (<[k := VInteger 0]> ks, AErr EKeyTypeDifferent)  (* (!) *)
  | Some (VFloat f) => (<[k := VFloat (f64_add f x)]> ks, AVal (VFloat (f64_add f x)))
  | Some _ => (ks, AErr EKeyTypeDifferent)
  end.

Definition spec_increment_by (dbg : bool) (ks : keyspace) (k : bytes) (a : bytes)
  : keyspace * answer :=
  match arg_int a with      (* (!) whatever the key type *)
  | Some n => spec_add_int dbg ks k n
  | None => (ks, AErr EArgumentRetrieval)
  end.

Definition spec_decrement_by (dbg : bool) (ks : keyspace) (k : bytes) (a : bytes)
  : keyspace * answer :=
  match arg_int a with
  | Some n =>
    if decide (i64_range (- n)%Z) then spec_add_int dbg ks k (- n)
    else if dbg then (ks, ACrash)   (* (!) the amount cannot be negated *)
    else spec_add_int dbg ks k (i64_wrap (- n))
  | None => (ks, AErr EArgumentRetrieval)
  end.

Definition spec_append (dbg : bool) (ks : keyspace) (kt : option key_type) (k : bytes)
  (l : list bytes) : keyspace * answer :=
  let put v := (<[k := v]> ks, AVal v) in
  let different := (ks, AErr EKeyTypeDifferent) in
  match type_or ks kt k KTBytes with
  | KTBytes =>
    if bad_key dbg k then (ks, ACrash)
    else match default (VBytes []) (ks !! k) with
    | VBytes b => put (VBytes (b ++ concat l))
    | _ => different
    end
  | KTList =>
    if bad_key dbg k then (ks, ACrash)
    else match default (VList []) (ks !! k) with
    | VList b => put (VList (b ++ l))
    | _ => different
    end
  | KTString =>
    if bad_key dbg k then (ks, ACrash)
    else match default (VString []) (ks !! k) with
    | VString b => (* (!) arguments that are not UTF-8 are left out *)
      put (VString (b ++ concat (filter (fun a => utf8_valid a = true) l)))
    | _ => different
    end
  | _ => different
  end.

(** Characters of a UTF-8 string: the bytes that start one. *)
Definition starts_char (b : byte) : bool := negb ((128 <=? b2n b) && (b2n b <? 192))%N.

Definition size_of (v : value) : option N :=
  match v with
  | VBytes b => Some (lenN b)
  | VList l => Some (lenN l)
  | VMap m => Some (N.of_nat (size m))
  | VSet s => Some (N.of_nat (size s))
  | VString s => Some (lenN (filter (fun b => starts_char b = true) s))
  | _ => None
  end.

Definition spec_length (dbg : bool) (ks : keyspace) (kt : option key_type) (k : bytes)
  : answer :=
  match type_or ks kt k KTBytes with
  | KTBoolean | KTFloat | KTInteger => AErr EKeyTypeInvalid
  | t =>
    if bad_key dbg k then ACrash
    else match ks !! k with
    | None => AErr EKeyNonexistent
    | Some v =>
      if decide (kind v = t)
      then match size_of v with
           | Some n => AVal (VInteger (Z.of_N n))
           | None => AErr EKeyTypeInvalid
           end
      else AErr EKeyTypeDifferent
    end
  end.

Definition spec_keys (dbg : bool) (ks : keyspace) (kt : option key_type) (k : bytes)
  : answer :=
  match type_or ks kt k KTMap with
  | KTMap =>
    if bad_key dbg k then ACrash
    else match ks !! k with
    | None => AErr EKeyNonexistent
    | Some (VMap m) => AKeys (dom m)
    | Some _ => AErr EKeyTypeDifferent
    end
  | _ => AErr EKeyTypeInvalid
  end.

Definition spec_rename (ks : keyspace) (from to : bytes) : keyspace * answer :=
  match ks !! from, ks !! to with
  | None, _ => (ks, AErr EKeyNonexistent)
  | Some _, Some _ => (ks, AErr EPreconditionFailed)
  | Some v, None => (<[to := v]> (delete from ks), AVal (VBytes to))
  end.

Definition is_present (ks : keyspace) (k : bytes) : bool :=
  match ks !! k with Some _ => true | None => false end.
Definition has_kind (ks : keyspace) (t : key_type) (k : bytes) : bool :=
  match ks !! k with Some v => bool_decide (kind v = t) | None => false end.

(** The sixteen commands; [stats] is the map Stats answers. *)
Definition spec_command (dbg : bool) (stats : gmap bytes bytes) (c : command_id)
  (kt : option key_type) (l : list bytes) (ks : keyspace) : keyspace * answer :=
  match c, kt, l with
  | CAppend, _, [] | CDecrement, _, [] | CDecrementBy, _, [] | CGet, _, []
  | CIncrement, _, [] | CIncrementBy, _, [] | CKeys, _, [] | CLength, _, []
  | CSet, _, [] | CType, _, [] => (ks, AErr EKeyUnspecified)
  | CAppend, _, k :: l => spec_append dbg ks kt k l
  | CDecrement, Some KTFloat, k :: _ => spec_add_float dbg ks k f64_minus_one
  | CDecrement, _, k :: _ => spec_add_int dbg ks k (-1)
  | CDecrementBy, _, [_] => (ks, AErr EArgumentRetrieval)
  | CDecrementBy, _, k :: a :: _ => spec_decrement_by dbg ks k a
  | CDelete, Some _, _ => (ks, AErr EKeyTypeUnexpected)
  | CDelete, None, [] => (ks, AErr EKeyUnspecified)
  | CDelete, None, k :: _ =>
    if is_present ks k then (delete k ks, AVal (VBytes k)) else (ks, AErr EPreconditionFailed)
  | CEcho, _, _ => (ks, AVal (VList l))
  | CExists, Some _, _ => (ks, AErr EKeyTypeUnexpected)
  | CExists, None, [] => (ks, AErr EArgumentRetrieval)
  | CExists, None, _ => (ks, AVal (VBoolean (forallb (is_present ks) l)))
  | CGet, _, k :: _ => spec_get dbg ks kt k
  | CIncrement, Some KTFloat, k :: _ => spec_add_float dbg ks k f64_one
  | CIncrement, _, k :: _ => spec_add_int dbg ks k 1
  | CIncrementBy, _, [_] => (ks, AErr EArgumentRetrieval)
  | CIncrementBy, _, k :: a :: _ => spec_increment_by dbg ks k a
  | CIs, None, _ => (ks, AErr EKeyTypeRequired)
  | CIs, Some _, [] => (ks, AErr EArgumentRetrieval)
  | CIs, Some t, _ => (ks, AVal (VBoolean (forallb (has_kind ks t) l)))
  | CKeys, _, k :: _ => (ks, spec_keys dbg ks kt k)
  | CLength, _, k :: _ => (ks, spec_length dbg ks kt k)
  | CRename, Some _, _ => (ks, AErr EKeyTypeUnexpected)
  | CRename, None, [] => (ks, AErr EKeyUnspecified)
  | CRename, None, [_] => (ks, AErr EArgumentRetrieval)
  | CRename, None, from :: to :: _ => spec_rename ks from to
  | CSet, _, [_] => (ks, AErr EArgumentRetrieval)
  | CSet, _, k :: l => spec_set dbg ks kt k l
  | CStats, Some _, _ => (ks, AErr EKeyTypeUnexpected)
  | CStats, None, _ => (ks, AVal (VMap stats))
  | CType, Some _, _ => (ks, AErr EKeyTypeUnexpected)
  | CType, None, k :: _ =>
    match ks !! k with
    | None => (ks, AErr EKeyNonexistent)
    | Some v => (ks, AVal (VInteger (Z.of_N (key_type_to_u8 (kind v)))))
    end
  end.

(** (!) What Set leaves of a value when its response could not be written: maps and sets are stored
    only after it. *)
Definition emptied (v : value) : value :=
  match v with
  | VMap _ => VMap ∅
  | VSet _ => VSet ∅
  | _ => v
  end.

(** ** With the statistics *)

Record sstate := SState {
  sp_keys : keyspace;
  sp_ok : N;          (* commands that succeeded *)
  sp_err : N;         (* commands that answered an error *)
  sp_sessions : N     (* sessions started *)
}.

(** A counter that is still zero is not listed. *)
Definition count_entry (name : string) (n : N) (m : gmap bytes bytes) : gmap bytes bytes :=
  if (n =? 0)%N then m else <[lit name := i64_enc (Z.of_N n)]> m.

Definition spec_stats (s : sstate) : gmap bytes bytes :=
  count_entry "sessions_started" (sp_sessions s)
  (count_entry "commands_successful" (sp_ok s)
  (count_entry "commands_errored" (sp_err s) ∅)).

Definition spec_dispatch (dbg : bool) (c : command_id) (kt : option key_type)
  (l : list bytes) (s : sstate) : sstate * answer :=
  let '(ks, a) := spec_command dbg (spec_stats s) c kt l (sp_keys s) in
  (match a with
   | AVal _ | AKeys _ => SState ks (sp_ok s + 1) (sp_err s) (sp_sessions s)
   | AErr _ => SState ks (sp_ok s) (sp_err s + 1) (sp_sessions s)
   | ACrash => SState ks (sp_ok s) (sp_err s) (sp_sessions s)
   end, a).
