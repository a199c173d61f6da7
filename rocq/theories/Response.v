(** Response encoding: engine/src/command/response/mod.rs *)
From Verif Require Import Bytes Value CommandId.
From stdpp Require Import gmap list.
From Coq Require Import NArith ZArith.

(** engine/src/command/response/mod.rs:12-25 *)
Inductive response_type :=
| RTBoolean | RTBytes | RTFloat | RTInteger | RTList | RTMap | RTSet | RTString
| RTParseError | RTDispatchError.

(** [kind as u8], engine/src/command/response/mod.rs:14-25 *)
Definition response_type_to_u8 (t : response_type) : N :=
  match t with
  | RTBoolean => 0 | RTBytes => 1 | RTFloat => 2 | RTInteger => 3 | RTList => 4
  | RTMap => 5 | RTSet => 6 | RTString => 7 | RTParseError => 8
  | RTDispatchError => 9
  end%N.

(** [ResponseType::try_from(u8)], engine/src/command/response/mod.rs:27-45 *)
Definition response_type_of_u8 (n : N) : option response_type :=
  match n with
  | 0 => Some RTBoolean | 1 => Some RTBytes | 2 => Some RTFloat
  | 3 => Some RTInteger | 4 => Some RTList | 5 => Some RTMap | 6 => Some RTSet
  | 7 => Some RTString | 8 => Some RTParseError | 9 => Some RTDispatchError
  | _ => None
  end%N.

(** engine/src/command/response/mod.rs:47-52 *)
Inductive response :=
| RDispatchError (err : dispatch_error)
| RParseError (err : parse_error)
| RValue (v : value).

(** [kind as u8], engine/src/command/response/mod.rs:134,144,152,159,166,173,191,237,268,287. *)
Definition rt_byte (t : response_type) : byte := n2b (response_type_to_u8 t).

(** [u32] addition; engine/src/command/response/mod.rs:142,194,210,231,262,285. *)
Definition u32_add (dbg : bool) (a b : N) : outcome N := uadd u32_mod dbg a b.

(** [to[i..i + src.len()].clone_from_slice(src)], in bounds at both uses;
    engine/src/command/response/mod.rs:218-219. *)
Definition patch (to : bytes) (i : N) (src : bytes) : bytes :=
  take (N.to_nat i) to ++ src ++ drop (N.to_nat i + length src) to.

(** [write_bool], engine/src/command/response/mod.rs:131-136 *)
Definition write_bool (to : bytes) (x : bool) : bytes :=
  to ++ be_enc 4 2 ++ [rt_byte RTBoolean] ++ [n2b (if x then 1 else 0)%N].

(** [write_bytes], engine/src/command/response/mod.rs:138-147;
    [1 + 4 + len] is [u32] arithmetic. *)
Definition write_bytes (e : env) (to : bytes) (v : bytes) : outcome bytes :=
  let len := as_u32 (lenN v) in
  obind (u32_add (debug e) 5 len) (fun response_len =>
  Ok (to ++ be_enc 4 response_len ++ [rt_byte RTBytes] ++ be_enc 4 len ++ v)).

(** [write_dispatch_error], engine/src/command/response/mod.rs:149-154 *)
Definition write_dispatch_error (to : bytes) (err : dispatch_error) : bytes :=
  to ++ be_enc 4 2 ++ [rt_byte RTDispatchError]
     ++ [n2b (dispatch_error_to_u8 err)].

(** [write_parse_error], engine/src/command/response/mod.rs:156-161 *)
Definition write_parse_error (to : bytes) (err : parse_error) : bytes :=
  to ++ be_enc 4 2 ++ [rt_byte RTParseError] ++ [n2b (parse_error_to_u8 err)].

(** [write_float], engine/src/command/response/mod.rs:163-168 *)
Definition write_float (to : bytes) (bits : N) : bytes :=
  to ++ be_enc 4 9 ++ [rt_byte RTFloat] ++ be_enc 8 bits.

(** [write_int], engine/src/command/response/mod.rs:170-175 *)
Definition write_int (to : bytes) (z : Z) : bytes :=
  to ++ be_enc 4 9 ++ [rt_byte RTInteger] ++ i64_enc z.

(** The loop of [write_list], engine/src/command/response/mod.rs:203-214 *)
Fixpoint write_list_loop (dbg : bool) (to : bytes) (msg_len item_count : N)
  (l : list bytes) : outcome (bytes * N * N) :=
  match l with
  | [] => Ok (to, msg_len, item_count)
  | x :: r =>
    obind (uadd u16_mod dbg item_count 1) (fun item_count =>
    let item_len := as_u32 (lenN x) in
    obind (u32_add dbg 4 item_len) (fun n =>
    obind (u32_add dbg msg_len n) (fun msg_len =>
    write_list_loop dbg (to ++ be_enc 4 item_len ++ x) msg_len item_count r)))
  end.

(** [write_list], engine/src/command/response/mod.rs:177-220 *)
Definition write_list (e : env) (to : bytes) (l : list bytes) : outcome bytes :=
  let start := lenN to in
  let to := to ++ [x00; x00; x00; x00] ++ [rt_byte RTList] ++ [x00; x00] in
  obind (write_list_loop (debug e) to 3 0 l) (fun '(to, msg_len, item_count) =>
  let to := patch to start (be_enc 4 msg_len) in
  Ok (patch to (start + 5)%N (be_enc 2 item_count))).

(** The length loop of [write_map], engine/src/command/response/mod.rs:227-232:
    [response_len += 1 + key.len() as u32 + 4 + value.len() as u32]. *)
Fixpoint map_len_loop (dbg : bool) (acc : N) (l : list (bytes * bytes))
  : outcome N :=
  match l with
  | [] => Ok acc
  | (k, v) :: r =>
    obind (u32_add dbg 1 (as_u32 (lenN k))) (fun a =>
    obind (u32_add dbg a 4) (fun a =>
    obind (u32_add dbg a (as_u32 (lenN v))) (fun a =>
    obind (u32_add dbg acc a) (fun acc => map_len_loop dbg acc r))))
  end.

(** One entry of a map, engine/src/command/response/mod.rs:242-252 *)
Definition map_entry (kv : bytes * bytes) : bytes :=
  [n2b (lenN (fst kv))] ++ fst kv ++ be_enc 4 (as_u32 (lenN (snd kv))) ++ snd kv.

(** [write_map], engine/src/command/response/mod.rs:222-253.  Both loops see
    the same iteration order: the map is not shared while it is written. *)
Definition write_map (e : env) (to : bytes) (m : gmap bytes bytes)
  : outcome bytes :=
  let l := map_iter e m in
  obind (map_len_loop (debug e) 3 l) (fun response_len =>
  Ok (to ++ be_enc 4 response_len ++ [rt_byte RTMap]
         ++ be_enc 2 (as_u16 (N.of_nat (size m)))
         ++ concat (map map_entry l))).

(** The length loop of [write_set], engine/src/command/response/mod.rs:260-263 *)
Fixpoint set_len_loop (dbg : bool) (acc : N) (l : list bytes) : outcome N :=
  match l with
  | [] => Ok acc
  | x :: r =>
    obind (u32_add dbg 2 (as_u32 (lenN x))) (fun a =>
    obind (u32_add dbg acc a) (fun acc => set_len_loop dbg acc r))
  end.

(** One item of a set, engine/src/command/response/mod.rs:273-278 *)
Definition set_entry (x : bytes) : bytes := be_enc 2 (as_u16 (lenN x)) ++ x.

(** [write_set], engine/src/command/response/mod.rs:255-279 *)
Definition write_set (e : env) (to : bytes) (s : gset bytes) : outcome bytes :=
  let l := set_iter e s in
  obind (set_len_loop (debug e) 3 l) (fun response_len =>
  Ok (to ++ be_enc 4 response_len ++ [rt_byte RTSet]
         ++ be_enc 2 (as_u16 (N.of_nat (size s)))
         ++ concat (map set_entry l))).

(** [write_str], engine/src/command/response/mod.rs:281-291 *)
Definition write_str (e : env) (to : bytes) (v : bytes) : outcome bytes :=
  let len := as_u32 (lenN v) in
  obind (u32_add (debug e) 5 len) (fun response_len =>
  Ok (to ++ be_enc 4 response_len ++ [rt_byte RTString] ++ be_enc 4 len ++ v)).

(** [write_value], engine/src/command/response/mod.rs:293-304 *)
Definition write_value (e : env) (to : bytes) (v : value) : outcome bytes :=
  match v with
  | VBoolean x => Ok (write_bool to x)
  | VBytes bs => write_bytes e to bs
  | VFloat n => Ok (write_float to n)
  | VInteger z => Ok (write_int to z)
  | VList l => write_list e to l
  | VMap m => write_map e to m
  | VSet s => write_set e to s
  | VString s => write_str e to s
  end.

(** [Response::copy_to], engine/src/command/response/mod.rs:62-68 *)
Definition copy_to (e : env) (r : response) (to : bytes) : outcome bytes :=
  match r with
  | RDispatchError err => Ok (write_dispatch_error to err)
  | RParseError err => Ok (write_parse_error to err)
  | RValue v => write_value e to v
  end.

(** [Response::as_bytes], engine/src/command/response/mod.rs:55-60 *)
Definition as_frame (e : env) (r : response) : outcome bytes := copy_to e r [].
