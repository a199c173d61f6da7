(** What a memory client really does, on all calls whose arguments and values fit the formats: the
    map of [ClientSpec], and where the client departs from it. *)
From Coq Require Import String.
From Verif Require Import Bytes Utf8 Float64 Value CommandId Request Response RespContext
  Metrics Prog Commands EngineSpec WireSpec RequestSpec HistorySpec Client ClientSpec.
From stdpp Require Import gmap list.
From Coq Require Import NArith ZArith.

(** A call does what is expected of it, or panics: before anything was done, or after. *)
Inductive real :=
| Does (x : expected)
| PanicsBefore
| PanicsAfter.

Definition is_reserved (k : bytes) : bool := bool_decide (take 8 k = lit "__hop__:"%string).
Definition sizeless (t : key_type) : bool :=
  match t with KTBoolean | KTFloat | KTInteger => true | _ => false end.

(** First departure: most calls panic when given an internal key.  [length] and [keys] fail before
    that if the type is one they cannot be used with, [set] if there is no item. *)
Definition trips (c : client_call) (ks : keyspace) : bool :=
  match c with
  | KDelete _ | KEcho _ | KExists _ | KIs _ _ | KKeyType _ | KRename _ _ | KStats => false
  | KSet _ (VList []) | KSetTyped _ (VList []) => false
  | KAppend k _ | KAppendTyped k _ | KSet k _ | KSetTyped k _ | KIncrementBy k _
  | KDecrementBy k _ | KDecrement k _ | KGet k | KIncrement k _ | KGetTyped k _
  | KIncrementInt k _ | KIncrementFloat k _ | KDecrementInt k _ | KDecrementFloat k _ =>
    is_reserved k
  | KLength k (Some t) => is_reserved k && negb (sizeless t)
  | KLength k None =>
    is_reserved k && match ks !! k with Some v => negb (sizeless (kind v)) | None => true end
  | KKeys k =>
    is_reserved k && match ks !! k with Some v => bool_decide (kind v = KTMap) | None => true end
  end.
(** [set] has by then removed what was there. *)
Definition tripped (c : client_call) (ks : keyspace) : keyspace :=
  match c with
  | KSet k _ | KSetTyped k _ => delete k ks
  | _ => ks
  end.

(** Second departure: every amount is added as an integer, a float as the integer with its bits.  A
    negated amount or a sum that does not fit 64 bits panics in a debug build; in a release build the
    sum wraps around ([i64_wrap] changes nothing that fits). *)
Definition add_really (dbg : bool) (k : bytes) (n : Z) (ks : keyspace) : keyspace * real :=
  if dbg && negb (bool_decide (i64_range n)) then (ks, PanicsBefore)
  else match default (VInteger 0) (ks !! k) with
  | VInteger z =>
    if dbg && negb (bool_decide (i64_range (z + n))) then (ks, PanicsBefore)
    else let sum := VInteger (i64_wrap (z + n)) in
         (<[k := sum]> ks, Does (Returns (RpValue sum)))
  | _ => (ks, Does (fails EKeyTypeDifferent))
  end.

(** Third departure: a typed call that is answered with a value of another type panics. *)
Definition only_if (t : key_type) (r : keyspace * real) : keyspace * real :=
  (r.1, match r.2 with
        | Does (Returns (RpValue v)) => if decide (kind v = t) then r.2 else PanicsAfter
        | x => x
        end).

Definition really (dbg : bool) (successful errored : N) (c : client_call) (ks : keyspace)
  : keyspace * real :=
  let as_expected := let '(ks', x) := act successful errored c ks in (ks', Does x) in
  if trips c ks then (tripped c ks, PanicsBefore)
  else match c with
  | KIncrementInt _ _ | KDecrementInt _ _ =>
    match amount c with Some (k, n) => only_if KTInteger (add_really dbg k n ks) | None => as_expected end
  | KIncrementFloat _ _ | KDecrementFloat _ _ =>
    match amount c with Some (k, n) => only_if KTFloat (add_really dbg k n ks) | None => as_expected end
  (* fourth departure: a float step creates an integer where there is nothing *)
  | KIncrement k (Some KTFloat) | KDecrement k (Some KTFloat) =>
    match ks !! k with
    | None => (<[k := VInteger 0]> ks, Does (fails EKeyTypeDifferent))
    | Some _ => as_expected
    end
  (* fifth departure: an empty list cannot be set *)
  | KSet _ (VList []) | KSetTyped _ (VList []) => (ks, Does (fails EArgumentRetrieval))
  | KGetTyped _ t => only_if t as_expected
  | _ =>
    match amount c with Some (k, n) => add_really dbg k n ks | None => as_expected end
  end.

(** With the counts of successful and failed commands. *)
Definition real_call (dbg : bool) (c : client_call) (i : ideal) : ideal * real :=
  match refused c with
  | Some err => (i, Does (Fails err))
  | None =>
    let '(ks, x) := really dbg (i_ok i) (i_err i) c (i_keys i) in
    match x with
    | Does (Fails _) => (Ideal ks (i_ok i) (i_err i + 1), x)
    | PanicsBefore => (Ideal ks (i_ok i) (i_err i), x)
    | Does _ | PanicsAfter => (Ideal ks (i_ok i + 1) (i_err i), x)
    end
  end.

Definition really_meets (r : client_res reply) (x : real) : Prop :=
  match x with
  | Does x => meets r x
  | PanicsBefore | PanicsAfter => r = RPanic
  end.

(** Arguments and values that fit: at most 255 arguments, names and values within the sizes of the
    formats, and no value stored that is one of the empty ones of C14. *)
Definition fits (dbg : bool) (c : client_call) (i : ideal) : Prop :=
  (sends c <= 255)%N /\
  Forall (fun k => (lenN k < 2 ^ 32 - 16)%N) (named c) /\
  (forall v, carried c = Some v -> value_wf v) /\
  all_sound (i_keys (real_call dbg c i).1).

Fixpoint real_calls (h : list (env * client_call)) (i : ideal) : ideal * list real :=
  match h with
  | [] => (i, [])
  | (e, c) :: h =>
    let '(i, x) := real_call (debug e) c i in
    let '(i, xs) := real_calls h i in
    (i, x :: xs)
  end.
Fixpoint all_fit (h : list (env * client_call)) (i : ideal) : Prop :=
  match h with
  | [] => True
  | (e, c) :: h => env_ok e /\ fits (debug e) c i /\ all_fit h (real_call (debug e) c i).1
  end.

(** ** C43 *)

(** The three reasons for a panic, said without the map. *)
Definition on_internal (c : client_call) (ks : keyspace) : Prop := trips c ks = true.
Definition overflow_in (c : client_call) (ks : keyspace) : Prop :=
  exists k n, amount c = Some (k, n) /\ overflows ks k n.
Definition wrong_kind (c : client_call) (ks : keyspace) : Prop :=
  match c with
  | KGetTyped k t => exists v, ks !! k = Some v /\ kind v <> t
  | KIncrementFloat k _ | KDecrementFloat k _ =>
    exists z, default (VInteger 0) (ks !! k) = VInteger z
  | _ => False
  end.
