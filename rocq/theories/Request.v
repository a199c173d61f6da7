(** Requests, argument access and conversion, and the request builder:
    engine/src/command/request/mod.rs, engine/src/command/request/builder.rs *)
From Verif Require Import Bytes Utf8 Value CommandId.
From stdpp Require Import gmap list.
From Coq Require Import NArith ZArith.

(** ** Requests *)

(** engine/src/command/request/mod.rs:123-129.  [r_positions] models
    [ArrayVec<[usize; 256]>]; its capacity is enforced where it is pushed to. *)
Record request := Request {
  r_buf : bytes;
  r_command : command_id;
  r_key_type : option key_type;
  r_positions : list N
}.

(** [key_type.is_some() as usize];
    engine/src/command/request/mod.rs:169, engine/src/command/request/builder.rs:230,261. *)
Definition kt_base (kt : option key_type) : N :=
  match kt with Some _ => 1%N | None => 0%N end.

(** [Request::arg_count], engine/src/command/request/mod.rs:179-181 *)
Definition arg_count (r : request) : N := lenN (r_positions r).

(** [Request::arg], engine/src/command/request/mod.rs:165-177 *)
Definition arg (r : request) (idx : N) : option bytes :=
  match get_at (r_positions r) idx with
  | None => None
  | Some position =>
    if (idx =? 0)%N
    then get_range_incl (r_buf r) (6 + kt_base (r_key_type r))%N position
    else
      match get_at (r_positions r) (idx - 1)%N with
      | None => None
      | Some previous => get_range_incl (r_buf r) (previous + 5)%N position
      end
  end.

(** [Request::key], engine/src/command/request/mod.rs:189-195 *)
Definition key (r : request) : option bytes :=
  match key_notation_of (r_command r) with
  | KNNone => None
  | _ => arg r 0
  end.

(** engine/src/command/request/mod.rs:95-100 *)
Record arguments := Arguments {
  a_idx : N;
  a_to : N;
  a_req : request
}.

(** [core::ops::Bound]; as matched in engine/src/command/request/mod.rs:141-150. *)
Inductive bound := BIncluded (n : N) | BExcluded (n : N) | BUnbounded.

(** [Request::args(range)], engine/src/command/request/mod.rs:136-157 *)
Definition args (r : request) (lo hi : bound) : option arguments :=
  if (arg_count r =? 0)%N then None
  else
    let start := match lo with
                 | BExcluded a => (a + 1)%N
                 | BIncluded a => a
                 | BUnbounded => 0%N
                 end in
    let stop := match hi with
                | BExcluded a => a
                | BIncluded a => (a + 1)%N
                | BUnbounded => arg_count r
                end in
    Some (Arguments start stop r).

(** [req.args(n..)], [req.args(..)];
    as called in engine/src/command/request/mod.rs:160, engine/src/command/impl/append.rs:63, is.rs:12. *)
Definition args_from (r : request) (n : N) : option arguments :=
  args r (BIncluded n) BUnbounded.
(** [req.args(..)], as called in engine/src/command/impl/is.rs:12, echo.rs:9. *)
Definition args_all (r : request) : option arguments :=
  args r BUnbounded BUnbounded.

(** [Arguments::len], engine/src/command/request/mod.rs:102-106 *)
Definition arguments_len (a : arguments) : N := a_to a.

(** [Arguments::next], engine/src/command/request/mod.rs:108-121 *)
Definition arguments_next (a : arguments) : option bytes * arguments :=
  if (a_idx a =? a_to a)%N then (None, a)
  else (arg (a_req a) (a_idx a), Arguments (a_idx a + 1)%N (a_to a) (a_req a)).

(** [for arg in args], [args.collect()]: call [next] until it answers [None].
    The fuel bounds the number of calls; [arguments_fuel] always suffices
    ([RequestFacts.collect_drained]);
    engine/src/command/request/mod.rs:81; engine/src/command/impl/append.rs:19,32,48. *)
Fixpoint arguments_collect_fuel (fuel : nat) (a : arguments) : list bytes :=
  match fuel with
  | O => []
  | S f =>
    match arguments_next a with
    | (None, _) => []
    | (Some x, a') => x :: arguments_collect_fuel f a'
    end
  end.

(** Enough fuel for the above: the iterator of engine/src/command/request/mod.rs:108-121 yields at most this many items. *)
Definition arguments_fuel (a : arguments) : nat :=
  S (length (r_positions (a_req a))).

(** The same with enough fuel (engine/src/command/request/mod.rs:81, engine/src/command/impl/append.rs:19,32,48). *)
Definition arguments_collect (a : arguments) : list bytes :=
  arguments_collect_fuel (arguments_fuel a) a.

(** ** Conversions *)

(** engine/src/command/request/mod.rs:41-47 *)
Definition convert_bool (bs : bytes) : option bool :=
  match bs with
  | [] => None
  | b :: _ => Some (0 <? b2n b)%N
  end.

(** engine/src/command/request/mod.rs:49-55 *)
Definition convert_f64 (bs : bytes) : option N :=
  match get_range bs 0 8 with
  | Some arr => Some (be_dec arr)
  | None => None
  end.

(** engine/src/command/request/mod.rs:57-63 *)
Definition convert_i64 (bs : bytes) : option Z :=
  match get_range bs 0 8 with
  | Some arr => Some (i64_dec arr)
  | None => None
  end.

(** engine/src/command/request/mod.rs:89-93 *)
Definition convert_str (bs : bytes) : option bytes := from_utf8 bs.

(** [MultiArgument for DashMap], engine/src/command/request/mod.rs:65-75:
    [while let (Some(k), Some(v)) = (args.next(), args.next())]. *)
Fixpoint convert_map_fuel (fuel : nat) (a : arguments) (m : gmap bytes bytes)
  : gmap bytes bytes :=
  match fuel with
  | O => m
  | S f =>
    let '(k, a1) := arguments_next a in
    let '(v, a2) := arguments_next a1 in
    match k, v with
    | Some k, Some v => convert_map_fuel f a2 (<[k := v]> m)
    | _, _ => m
    end
  end.

(** [DashMap::convert], engine/src/command/request/mod.rs:65-75, with enough fuel. *)
Definition convert_map (a : arguments) : gmap bytes bytes :=
  convert_map_fuel (arguments_fuel a) a ∅.

(** [MultiArgument for DashSet], engine/src/command/request/mod.rs:77-87 *)
Definition convert_set (a : arguments) : gset bytes :=
  fold_left (fun s x => {[x]} ∪ s) (arguments_collect a) ∅.

(** [Request::typed_arg], engine/src/command/request/mod.rs:183-187 *)
Definition typed_arg {A} (conv : bytes -> option A) (r : request) (idx : N)
  : option A :=
  match arg r idx with
  | Some bs => conv bs
  | None => None
  end.

(** [Request::typed_args], engine/src/command/request/mod.rs:159-163 *)
Definition typed_args {A} (conv : arguments -> A) (r : request) : option A :=
  match args_from r 1 with
  | Some a => Some (conv a)
  | None => None
  end.

(** ** The builder *)

(** engine/src/command/request/builder.rs:11-15 *)
Inductive builder_error := BEArgumentEmpty | BETooManyArguments | BEValueEmpty.

(** engine/src/command/request/builder.rs:34-40 *)
Record builder := Builder {
  b_count : N;                    (* argument_count: u8 *)
  b_buf : bytes;
  b_command : command_id;
  b_key_type : option key_type;
  b_positions : list N
}.

(** Capacity of [ArrayVec<[usize; 256]>];
    engine/src/command/request/builder.rs:39, engine/src/command/request/context.rs:51. *)
Definition positions_cap : N := 256.

(** [RequestBuilder::new], engine/src/command/request/builder.rs:44-60 *)
Definition builder_new (c : command_id) : builder :=
  Builder 0
    (n2b (command_id_to_u8 c) :: (if is_simple c then [] else [x00]))
    c None [].

(** [RequestBuilder::new_with_key_type],
    engine/src/command/request/builder.rs:62-89 *)
Definition builder_new_kt (c : command_id) (kt : option key_type) : builder :=
  Builder 0
    (n2b (match kt with
          | Some _ => N.lor (command_id_to_u8 c) 128
          | None => command_id_to_u8 c
          end)
     :: (match kt with
         | Some k => [n2b (key_type_to_u8 k)]
         | None => []
         end)
     ++ (if is_simple c then [] else [x00]))
    c kt [].

(** [RequestBuilder::into_request],
    engine/src/command/request/builder.rs:92-99 *)
Definition into_request (b : builder) : request :=
  Request (b_buf b) (b_command b) (b_key_type b) (b_positions b).

(** [RequestBuilder::arguments_would_overfill(amount: u8)],
    engine/src/command/request/builder.rs:225-227 *)
Definition would_overfill (b : builder) (amount : N) : bool :=
  (256 <=? b_count b + amount)%N.

(** [RequestBuilder::push_argument],
    engine/src/command/request/builder.rs:241-274, with [update_count],
    229-231.  It only ever answers [Ok(())]; it may panic. *)
Definition push_argument (e : env) (b : builder) (a : bytes) : outcome builder :=
  let buf := b_buf b ++ be_enc 4 (as_u32 (lenN a)) ++ a in
  obind (uadd u8_mod (debug e) (b_count b) 1) (fun count =>
  match set_at buf (1 + kt_base (b_key_type b))%N (n2b count) with
  | None => Panic
  | Some buf =>
    let position :=
      match last (b_positions b) with
      | Some p => (p + 4 + lenN a)%N
      | None => (kt_base (b_key_type b) + 1 + 4 + lenN a)%N
      end in
    if (lenN (b_positions b) <? positions_cap)%N
    then Ok (Builder count buf (b_command b) (b_key_type b)
                     (b_positions b ++ [position]))
    else Panic
  end).

(** The answer of a builder method: the builder is mutated even when the method
    answers an error;
    [Result<&mut Self, RequestBuilderError>], engine/src/command/request/builder.rs:123-135,153-223. *)
Definition builder_res : Type := outcome (builder * option builder_error).

(** [RequestBuilder::bytes], engine/src/command/request/builder.rs:123-135 *)
Definition builder_bytes (e : env) (b : builder) (bs : bytes) : builder_res :=
  match bs with
  | [] => Ok (b, Some BEArgumentEmpty)
  | _ => outmap (fun b' => (b', None)) (push_argument e b bs)
  end.

(** The loops of [RequestBuilder::_value], engine/src/command/request/builder.rs:178-184, 209-211;
    [check] is whether an empty item is an error (lists: yes, 178-184; sets: no, 209-211). *)
Fixpoint push_items (e : env) (check : bool) (b : builder) (l : list bytes)
  : builder_res :=
  match l with
  | [] => Ok (b, None)
  | x :: r =>
    if check && (lenN x =? 0)%N then Ok (b, Some BEValueEmpty)
    else obind (push_argument e b x) (fun b' => push_items e check b' r)
  end.

(** The loop over a map, engine/src/command/request/builder.rs:195-198 *)
Fixpoint push_pairs (e : env) (b : builder) (l : list (bytes * bytes))
  : builder_res :=
  match l with
  | [] => Ok (b, None)
  | (k, v) :: r =>
    obind (push_argument e b k) (fun b1 =>
    obind (push_argument e b1 v) (fun b2 => push_pairs e b2 r))
  end.

(** [RequestBuilder::value], engine/src/command/request/builder.rs:153-223 *)
Definition builder_value (e : env) (b : builder) (v : value) : builder_res :=
  let push a := outmap (fun b' => (b', None)) (push_argument e b a) in
  match v with
  | VBoolean x => push [n2b (if x then 1 else 0)%N]
  | VBytes [] => Ok (b, Some BEValueEmpty)
  | VBytes bs => push bs
  | VFloat n => push (be_enc 8 n)
  | VInteger z => push (i64_enc z)
  | VList l =>
    if would_overfill b (as_u8 (lenN l)) then Ok (b, Some BETooManyArguments)
    else push_items e true b l
  | VMap m =>
    if would_overfill b (as_u8 (N.of_nat (size m)))
    then Ok (b, Some BETooManyArguments)
    else if (size m =? 0)%nat then Ok (b, Some BEValueEmpty)
    else push_pairs e b (map_iter e m)
  | VSet s =>
    if would_overfill b (as_u8 (N.of_nat (size s)))
    then Ok (b, Some BETooManyArguments)
    else if (size s =? 0)%nat then Ok (b, Some BEValueEmpty)
    else push_items e false b (set_iter e s)
  | VString [] => Ok (b, Some BEValueEmpty)
  | VString s => push s
  end.

(** [From<Request> for RequestBuilder],
    engine/src/command/request/builder.rs:277-285 *)
Definition builder_of_request (r : request) : builder :=
  let b := builder_new_kt (r_command r) (r_key_type r) in
  Builder (b_count b) (r_buf r) (b_command b) (b_key_type b) (r_positions r).
