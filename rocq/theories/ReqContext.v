(** The incremental request parser: engine/src/command/request/context.rs *)
From Verif Require Import Bytes Value CommandId Request.
From stdpp Require Import list.
From Coq Require Import NArith.

(** engine/src/command/request/context.rs:28-40 *)
Inductive req_stage :=
| QInit
| QKind (c : command_id) (kt : option key_type)
| QArgs (count : N) (c : command_id) (kt : option key_type).

(** engine/src/command/request/context.rs:48-53 *)
Record req_ctx := ReqCtx {
  q_idx : N;
  q_positions : list N;
  q_stage : req_stage
}.

(** [Context::new], engine/src/command/request/context.rs:58-60, 198-206 *)
Definition req_ctx_new : req_ctx := ReqCtx 0 [] QInit.

(** [Context::reset], engine/src/command/request/context.rs:191-195 *)
Definition req_ctx_reset (_ : req_ctx) : req_ctx := ReqCtx 0 [] QInit.

(** [ContextConclusion], engine/src/command/mod.rs *)
Inductive conclusion :=
| QFinished (c : command_id) (kt : option key_type)
| QIncomplete
| QNext.

(** [Context::stage_init], engine/src/command/request/context.rs:105-139 *)
Definition req_stage_init (x : req_ctx) (buf : bytes)
  : parse_error + (req_ctx * conclusion) :=
  match buf with
  | [] => inr (x, QIncomplete)
  | byte :: _ =>
    let kt : parse_error + option key_type :=
      if (N.shiftr (b2n byte) 7 =? 1)%N then
        match key_type_of_u8 (N.shiftr (b2n byte) 1) with
        | Some k => inr (Some k)
        | None => inl PEKeyTypeInvalid
        end
      else inr None in
    match kt with
    | inl err => inl err
    | inr kt =>
      match command_id_of_u8 (b2n byte) with
      | None => inl PECommandIdInvalid
      | Some c =>
        if is_simple c then inr (x, QFinished c None)
        else inr (ReqCtx (q_idx x + 1)%N (q_positions x) (QKind c kt), QNext)
      end
    end
  end.

(** [Context::stage_kind], engine/src/command/request/context.rs:141-160 *)
Definition req_stage_kind (x : req_ctx) (buf : bytes) (kt : option key_type)
  (c : command_id) : req_ctx * conclusion :=
  match get_at buf (q_idx x) with
  | None => (x, QIncomplete)
  | Some count =>
    (ReqCtx (q_idx x + 1)%N (q_positions x) (QArgs (b2n count) c kt), QNext)
  end.

(** [Context::stage_argument_parsing],
    engine/src/command/request/context.rs:162-189; [Panic] is the panic of
    [ArrayVec::push] on a full vector. *)
Definition req_stage_args (x : req_ctx) (buf : bytes) (c : command_id)
  (kt : option key_type) (count : N) : outcome (req_ctx * conclusion) :=
  match get_range buf (q_idx x) (q_idx x + 4)%N with
  | None => Ok (x, QIncomplete)
  | Some len_bytes =>
    let arg_len := be_dec len_bytes in
    match get_range buf (q_idx x) (q_idx x + arg_len)%N with
    | None => Ok (x, QIncomplete)
    | Some _ =>
      if (lenN (q_positions x) <? positions_cap)%N then
        let x' := ReqCtx (q_idx x + (4 + arg_len))%N
                         (q_positions x ++ [(q_idx x + arg_len)%N])
                         (q_stage x) in
        if (lenN (q_positions x') =? count)%N
        then Ok (x', QFinished c kt)
        else Ok (x', QNext)
      else Panic
    end
  end.

(** The answers of [Context::feed];
    [Result<Option<Request>, ParseError>], engine/src/command/request/context.rs:62. *)
Inductive feed_res :=
| FNeedMore
| FRequest (r : request)
| FError (err : parse_error)
| FPanic
| FFuel.

(** [Context::feed], engine/src/command/request/context.rs:62-103.  One
    iteration of the loop per unit of fuel; [req_feed] gives enough
    ([ReqContextFacts.req_feed_no_fuel]).  As in the code the positions are
    cleared by [reset] before the request borrows them. *)
Fixpoint req_feed_fuel (fuel : nat) (x : req_ctx) (buf : bytes)
  : req_ctx * feed_res :=
  match fuel with
  | O => (x, FFuel)
  | S f =>
    if (lenN buf <? q_idx x)%N then (x, FNeedMore)
    else
      let step : parse_error + outcome (req_ctx * conclusion) :=
        match q_stage x with
        | QInit =>
          match req_stage_init x buf with
          | inl err => inl err
          | inr r => inr (Ok r)
          end
        | QKind c kt => inr (Ok (req_stage_kind x buf kt c))
        | QArgs count c kt => inr (req_stage_args x buf c kt count)
        end in
      match step with
      | inl err => (x, FError err)
      | inr Panic => (x, FPanic)
      | inr (Ok (x', QFinished c kt)) =>
        let x'' := req_ctx_reset x' in
        (x'', FRequest (Request buf c kt (q_positions x'')))
      | inr (Ok (x', QIncomplete)) => (x', FNeedMore)
      | inr (Ok (x', QNext)) => req_feed_fuel f x' buf
      end
  end.

(** [Context::feed], engine/src/command/request/context.rs:62-103, with enough fuel. *)
Definition req_feed (x : req_ctx) (buf : bytes) : req_ctx * feed_res :=
  req_feed_fuel (length buf + 4) x buf.
