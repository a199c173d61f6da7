(** The incremental response parser: engine/src/command/response/context.rs *)
From Verif Require Import Bytes Utf8 Value CommandId Response.
From stdpp Require Import gmap list.
From Coq Require Import NArith ZArith.

(** engine/src/command/response/context.rs:18-31 *)
Inductive resp_error :=
| XDispatchErrorInvalid | XParseErrorInvalid | XPayloadTooLarge
| XResponseTypeInvalid | XStringInvalid.

(** engine/src/command/response/context.rs:33-37 *)
Inductive instruction := IConcluded (r : response) | IReadBytes (n : N).

(** engine/src/command/response/context.rs:39-78 *)
Inductive resp_stage :=
| SInit
| SDetermineType
| STypeInit (k : response_type) (read_len : N)
| SBoolean
| SBytes (len : N)
| SFloat
| SInteger
| SList (acc : list bytes) (len : N)
| SMap (acc : gmap bytes bytes) (len : N)
| SDispatchError
| SParseError
| SSet (acc : gset bytes) (len : N)
| SString (len : N).

(** engine/src/command/response/context.rs:86-90 *)
Record resp_ctx := RespCtx { s_idx : N; s_stage : resp_stage }.

(** [Context::new] / [reset], engine/src/command/response/context.rs:93-95,
    523-526 *)
Definition resp_ctx_new : resp_ctx := RespCtx 0 SInit.
(** [Context::reset], engine/src/command/response/context.rs:523-526. *)
Definition resp_ctx_reset (_ : resp_ctx) : resp_ctx := RespCtx 0 SInit.

(** What one stage function returns:
    [Result<Option<Instruction>, ParseError>], or a panic;
    engine/src/command/response/context.rs:127 and the other stage functions. *)
Inductive stage_res :=
| GErr (err : resp_error)
| GInstr (i : instruction)
| GContinue.

(** What a stage function returns, with the context it leaves (engine/src/command/response/context.rs:127, [&mut self]). *)
Definition stage_out : Type := outcome (resp_ctx * stage_res).

(** [debug_assert!(c)] and then the rest, engine/src/command/response/context.rs:128,156,183,194-195,211,224,237,250-251. *)
Definition assert_then (dbg c : bool) (k : stage_out) : stage_out :=
  obind (debug_assert dbg c) (fun _ => k).

(** [usize] subtraction (64-bit); engine/src/command/response/context.rs:138,269,384. *)
Definition usize_sub (dbg : bool) (a b : N) : outcome N := usub u64_mod dbg a b.

(** [remaining_bytes], engine/src/command/response/context.rs:529-534.
    Simplification: the saturating addition never saturates a 64-bit [usize]. *)
Definition remaining_bytes (dbg : bool) (start read to_read : N) : outcome N :=
  obind (debug_assert dbg (0 <? start)%N) (fun _ =>
  obind (debug_assert dbg (read <=? start + to_read)%N) (fun _ =>
  Ok (start + to_read - read)%N)).

(** [Ok(Some(Instruction::ReadBytes(n)))], engine/src/command/response/context.rs:137-144. *)
Definition ask (x : resp_ctx) (n : outcome N) : stage_out :=
  obind n (fun n => Ok (x, GInstr (IReadBytes n))).

(** [Ok(Some(Instruction::Concluded(..)))], engine/src/command/response/context.rs:190. *)
Definition conclude (x : resp_ctx) (r : response) : stage_out :=
  Ok (x, GInstr (IConcluded r)).

(** [stage_init], engine/src/command/response/context.rs:127-153 *)
Definition resp_stage_init (dbg : bool) (x : resp_ctx) (buf : bytes) : stage_out :=
  assert_then dbg (s_idx x =? 0)%N
  match get_range buf 0 4 with
  | Some h =>
    let msg_len := be_dec h in
    if (lenN buf <? msg_len + 4)%N
    then ask x (usize_sub dbg (4 + msg_len)%N (lenN buf))
    else Ok (RespCtx (s_idx x + 4)%N SDetermineType, GContinue)
  | None => ask x (Ok (4 - lenN buf)%N)
  end.

(** [stage_determine_type], engine/src/command/response/context.rs:155-180 *)
Definition resp_stage_determine (dbg : bool) (x : resp_ctx) (buf : bytes)
  : stage_out :=
  assert_then dbg (s_idx x =? 4)%N
  match get_at buf (s_idx x) with
  | None => ask x (Ok 1%N)
  | Some byte =>
    match response_type_of_u8 (b2n byte) with
    | None => Ok (x, GErr XResponseTypeInvalid)
    | Some k =>
      let st := match k with
                | RTBoolean => SBoolean
                | RTFloat => SFloat
                | RTInteger => SInteger
                | RTList | RTMap | RTSet => STypeInit k 2
                | RTBytes | RTString => STypeInit k 4
                | RTDispatchError => SDispatchError
                | RTParseError => SParseError
                end in
      Ok (RespCtx (s_idx x + 1)%N st, GContinue)
    end
  end.

(** [stage_boolean], engine/src/command/response/context.rs:182-191 *)
Definition resp_stage_boolean (dbg : bool) (x : resp_ctx) (buf : bytes)
  : stage_out :=
  assert_then dbg (s_idx x =? 5)%N
  match get_at buf (s_idx x) with
  | None => ask x (Ok 1%N)
  | Some byte => conclude x (RValue (VBoolean (negb (b2n byte =? 0)%N)))
  end.

(** [stage_bytes], engine/src/command/response/context.rs:193-208 *)
Definition resp_stage_bytes (dbg : bool) (x : resp_ctx) (buf : bytes) (len : N)
  : stage_out :=
  assert_then dbg (s_idx x =? 9)%N
  (assert_then dbg (negb (len =? 0)%N)
  match get_range buf (s_idx x) (s_idx x + len)%N with
  | Some bs => conclude x (RValue (VBytes bs))
  | None => ask x (remaining_bytes dbg (s_idx x) (lenN buf) len)
  end).

(** [stage_dispatch_error], engine/src/command/response/context.rs:210-221 *)
Definition resp_stage_dispatch_error (dbg : bool) (x : resp_ctx) (buf : bytes)
  : stage_out :=
  assert_then dbg (s_idx x =? 5)%N
  match get_at buf (s_idx x) with
  | None => ask x (Ok 1%N)
  | Some byte =>
    match dispatch_error_of_u8 (b2n byte) with
    | Some err => conclude x (RDispatchError err)
    | None => Panic
    end
  end.

(** [stage_float], engine/src/command/response/context.rs:223-234 *)
Definition resp_stage_float (dbg : bool) (x : resp_ctx) (buf : bytes)
  : stage_out :=
  assert_then dbg (s_idx x =? 5)%N
  match get_range buf (s_idx x) (s_idx x + 8)%N with
  | None => ask x (Ok 1%N)
  | Some bs => conclude x (RValue (VFloat (be_dec bs)))
  end.

(** [stage_integer], engine/src/command/response/context.rs:236-247 *)
Definition resp_stage_integer (dbg : bool) (x : resp_ctx) (buf : bytes)
  : stage_out :=
  assert_then dbg (s_idx x =? 5)%N
  match get_range buf (s_idx x) (s_idx x + 8)%N with
  | None => ask x (Ok 1%N)
  | Some bs => conclude x (RValue (VInteger (i64_dec bs)))
  end.

(** [stage_list], engine/src/command/response/context.rs:249-292 *)
Definition resp_stage_list (dbg : bool) (x : resp_ctx) (buf : bytes)
  (acc : list bytes) (len : N) : stage_out :=
  assert_then dbg (6 <? s_idx x)%N
  (assert_then dbg (6 <? lenN buf)%N
  (let arg_size_end := (s_idx x + 4)%N in
  match get_range buf (s_idx x) arg_size_end with
  | None => ask x (remaining_bytes dbg (s_idx x) (lenN buf) 4)
  | Some h =>
    let arg_value_end := (arg_size_end + be_dec h)%N in
    match get_range buf arg_size_end arg_value_end with
    | None => ask x (usize_sub dbg arg_value_end (lenN buf))
    | Some a =>
      let acc := acc ++ [a] in
      if (lenN acc <? len)%N
      then Ok (RespCtx arg_value_end (SList acc len), GContinue)
      else conclude (RespCtx (s_idx x) SInit) (RValue (VList acc))
    end
  end)).

(** [stage_map], engine/src/command/response/context.rs:294-359 *)
Definition resp_stage_map (dbg : bool) (x : resp_ctx) (buf : bytes)
  (acc : gmap bytes bytes) (len : N) : stage_out :=
  assert_then dbg (6 <? s_idx x)%N
  (assert_then dbg (6 <? lenN buf)%N
  (let key_size_end := (s_idx x + 1)%N in
  match get_range buf (s_idx x) key_size_end with
  | None => ask x (remaining_bytes dbg (s_idx x) (lenN buf) 1)
  | Some h =>
    let key_value_end := (key_size_end + be_dec h)%N in
    match get_range buf key_size_end key_value_end with
    | None => ask x (remaining_bytes dbg key_size_end (lenN buf) key_value_end)
    | Some k =>
      let value_size_end := (key_value_end + 4)%N in
      match get_range buf key_value_end value_size_end with
      | None => ask x (remaining_bytes dbg (s_idx x) (lenN buf) value_size_end)
      | Some h =>
        let value_end := (value_size_end + be_dec h)%N in
        match get_range buf value_size_end value_end with
        | None => ask x (remaining_bytes dbg value_size_end (lenN buf) value_end)
        | Some v =>
          let acc := <[k := v]> acc in
          if (N.of_nat (size acc) <? len)%N
          then Ok (RespCtx value_end (SMap acc len), GContinue)
          else conclude (RespCtx (s_idx x) SInit) (RValue (VMap acc))
        end
      end
    end
  end)).

(** [stage_parse_error], engine/src/command/response/context.rs:361-372 *)
Definition resp_stage_parse_error (dbg : bool) (x : resp_ctx) (buf : bytes)
  : stage_out :=
  assert_then dbg (s_idx x =? 5)%N
  match get_at buf (s_idx x) with
  | None => ask x (Ok 1%N)
  | Some byte =>
    match parse_error_of_u8 (b2n byte) with
    | Some err => conclude x (RParseError err)
    | None => Panic
    end
  end.

(** [stage_type_init], engine/src/command/response/context.rs:374-450.  The
    overflow check of line 444-447 never fires on a 64-bit [usize]. *)
Definition resp_stage_type_init (dbg : bool) (x : resp_ctx) (buf : bytes)
  (k : response_type) (read_len : N) : stage_out :=
  assert_then dbg (s_idx x =? 5)%N
  match get_range buf (s_idx x) (s_idx x + read_len)%N with
  | None => ask x (usize_sub dbg (read_len + 1)%N (lenN buf))
  | Some h =>
    assert_then dbg (lenN h =? read_len)%N
    (let len := be_dec h in
    let go st : stage_out := Ok (RespCtx (s_idx x + read_len)%N st, GContinue) in
    match k with
    | RTBytes => go (SBytes len)
    | RTList => go (SList [] len)
    | RTMap => if (len =? 0)%N then conclude x (RValue (VMap ∅))
               else go (SMap ∅ len)
    | RTSet => go (SSet ∅ len)
    | RTString => if (len =? 0)%N then conclude x (RValue value_string)
                  else go (SString len)
    | _ => Panic
    end)
  end.

(** [stage_set], engine/src/command/response/context.rs:452-497 *)
Definition resp_stage_set (dbg : bool) (x : resp_ctx) (buf : bytes)
  (acc : gset bytes) (len : N) : stage_out :=
  assert_then dbg (6 <? s_idx x)%N
  (assert_then dbg (6 <? lenN buf)%N
  (let arg_size_end := (s_idx x + 2)%N in
  match get_range buf (s_idx x) arg_size_end with
  | None => ask x (remaining_bytes dbg (s_idx x) (lenN buf) 2)
  | Some h =>
    let arg_value_end := (arg_size_end + be_dec h)%N in
    match get_range buf arg_size_end arg_value_end with
    | None => ask x (remaining_bytes dbg arg_size_end (lenN buf) arg_value_end)
    | Some a =>
      let acc := {[a]} ∪ acc in
      if (N.of_nat (size acc) <? len)%N
      then Ok (RespCtx arg_value_end (SSet acc len), GContinue)
      else conclude (RespCtx (s_idx x) SInit) (RValue (VSet acc))
    end
  end)).

(** [stage_string], engine/src/command/response/context.rs:499-521 *)
Definition resp_stage_string (dbg : bool) (x : resp_ctx) (buf : bytes)
  (read_len : N) : stage_out :=
  assert_then dbg (0 <? s_idx x)%N
  (assert_then dbg (0 <? read_len)%N
  match get_range buf (s_idx x) (s_idx x + read_len)%N with
  | None => ask x (usize_sub dbg (s_idx x + read_len)%N (lenN buf))
  | Some bs =>
    match from_utf8 bs with
    | Some s => conclude x (RValue (VString s))
    | None => Ok (x, GErr XStringInvalid)
    end
  end).

(** The [match self.stage] of [Context::feed],
    engine/src/command/response/context.rs:99-113 *)
Definition resp_step (dbg : bool) (x : resp_ctx) (buf : bytes) : stage_out :=
  match s_stage x with
  | SInit => resp_stage_init dbg x buf
  | SDetermineType => resp_stage_determine dbg x buf
  | SBoolean => resp_stage_boolean dbg x buf
  | SBytes len => resp_stage_bytes dbg x buf len
  | SFloat => resp_stage_float dbg x buf
  | SInteger => resp_stage_integer dbg x buf
  | SList acc len => resp_stage_list dbg x buf acc len
  | SMap acc len => resp_stage_map dbg x buf acc len
  | SSet acc len => resp_stage_set dbg x buf acc len
  | SString len => resp_stage_string dbg x buf len
  | STypeInit k n => resp_stage_type_init dbg x buf k n
  | SDispatchError => resp_stage_dispatch_error dbg x buf
  | SParseError => resp_stage_parse_error dbg x buf
  end.

(** The answers of [Context::feed];
    [Result<Instruction, ParseError>], engine/src/command/response/context.rs:97. *)
Inductive resp_feed_res :=
| PConcluded (r : response)
| PReadBytes (n : N)
| PError (err : resp_error)
| PPanic
| PFuel.

(** [Context::feed], engine/src/command/response/context.rs:97-125; one loop
    iteration per unit of fuel, [resp_feed] gives enough
    ([RespContextFacts.resp_feed_no_fuel]). *)
Fixpoint resp_feed_fuel (fuel : nat) (dbg : bool) (x : resp_ctx) (buf : bytes)
  : resp_ctx * resp_feed_res :=
  match fuel with
  | O => (x, PFuel)
  | S f =>
    match resp_step dbg x buf with
    | Panic => (x, PPanic)
    | Ok (x', GErr err) => (x', PError err)
    | Ok (x', GInstr (IConcluded r)) => (resp_ctx_reset x', PConcluded r)
    | Ok (x', GInstr (IReadBytes n)) => (x', PReadBytes n)
    | Ok (x', GContinue) => resp_feed_fuel f dbg x' buf
    end
  end.

(** [Context::feed], engine/src/command/response/context.rs:97-125, with enough fuel. *)
Definition resp_feed (dbg : bool) (x : resp_ctx) (buf : bytes)
  : resp_ctx * resp_feed_res :=
  resp_feed_fuel (length buf + 5) dbg x buf.
