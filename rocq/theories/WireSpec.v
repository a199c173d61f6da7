(** Specification of the two wire formats, independent of how the code reads
    and writes them.

    A request is
      [command id, top bit set iff typed] [key type]? [argument count]
      ([4-byte length] [bytes])*
    and a simple command (Stats) is just its command id.  A response frame is
      [4-byte length of the rest] [kind] [payload]. *)
From Verif Require Import Bytes Value CommandId Response RespContext.
From stdpp Require Import gmap list.
From Coq Require Import NArith ZArith.

(** One argument: 4-byte big-endian length, then the bytes. *)
Definition wire_arg (a : bytes) : bytes := be_enc 4 (lenN a) ++ a.

(** The id byte and the optional key type byte. *)
Definition wire_head (c : command_id) (kt : option key_type) : bytes :=
  match kt with
  | None => [n2b (command_id_to_u8 c)]
  | Some t => [n2b (128 + command_id_to_u8 c); n2b (key_type_to_u8 t)]
  end.

(** A request for a non-simple command. *)
Definition wire_request (c : command_id) (kt : option key_type)
  (l : list bytes) : bytes :=
  wire_head c kt ++ [n2b (lenN l)] ++ concat (map wire_arg l).

(** The pairs spelled by an argument list, in order; an odd last one is
    dropped. *)
Fixpoint pairs_of (l : list bytes) : list (bytes * bytes) :=
  match l with
  | k :: v :: r => (k, v) :: pairs_of r
  | _ => []
  end.

(** A response frame with the given kind and payload. *)
Definition frame (t : response_type) (payload : bytes) : bytes :=
  be_enc 4 (1 + lenN payload) ++ [n2b (response_type_to_u8 t)] ++ payload.

(** The payload of each kind of value; [ms] and [ss] are the entries in the
    order they are sent. *)
Definition payload_list (l : list bytes) : bytes :=
  be_enc 2 (lenN l) ++ concat (map (fun x => be_enc 4 (lenN x) ++ x) l).
Definition payload_map (l : list (bytes * bytes)) : bytes :=
  be_enc 2 (lenN l) ++
  concat (map (fun kv => be_enc 1 (lenN kv.1) ++ kv.1
                         ++ be_enc 4 (lenN kv.2) ++ kv.2) l).
Definition payload_set (l : list bytes) : bytes :=
  be_enc 2 (lenN l) ++ concat (map (fun x => be_enc 2 (lenN x) ++ x) l).
Definition payload_bytes (b : bytes) : bytes := be_enc 4 (lenN b) ++ b.

(** The kind byte and the payload of a response; maps and sets are sent in the
    order [e] iterates them in. *)
Definition resp_kind (r : response) : response_type :=
  match r with
  | RDispatchError _ => RTDispatchError
  | RParseError _ => RTParseError
  | RValue (VBoolean _) => RTBoolean
  | RValue (VBytes _) => RTBytes
  | RValue (VFloat _) => RTFloat
  | RValue (VInteger _) => RTInteger
  | RValue (VList _) => RTList
  | RValue (VMap _) => RTMap
  | RValue (VSet _) => RTSet
  | RValue (VString _) => RTString
  end.

Definition resp_payload (e : env) (r : response) : bytes :=
  match r with
  | RDispatchError err => [n2b (dispatch_error_to_u8 err)]
  | RParseError err => [n2b (parse_error_to_u8 err)]
  | RValue (VBoolean x) => [n2b (if x then 1 else 0)%N]
  | RValue (VBytes bs) => payload_bytes bs
  | RValue (VFloat n) => be_enc 8 n
  | RValue (VInteger z) => i64_enc z
  | RValue (VList l) => payload_list l
  | RValue (VMap m) => payload_map (map_iter e m)
  | RValue (VSet s) => payload_set (set_iter e s)
  | RValue (VString s) => payload_bytes s
  end.

Definition resp_frame (e : env) (r : response) : bytes :=
  frame (resp_kind r) (resp_payload e r).

(** The format's size limits: 4-byte message length, 2-byte counts, 1-byte map
    key lengths, 2-byte set item lengths, 4-byte other lengths. *)
Definition within_limits (r : response) : Prop :=
  match r with
  | RValue (VList l) =>
    (lenN l < u16_mod)%N /\ (1 + lenN (payload_list l) < u32_mod)%N
  | RValue (VMap m) =>
    (N.of_nat (size m) < u16_mod)%N /\
    (forall k v, m !! k = Some v -> (lenN k < 256)%N) /\
    (1 + lenN (payload_map (map_to_list m)) < u32_mod)%N
  | RValue (VSet s) =>
    (N.of_nat (size s) < u16_mod)%N /\
    (forall x, x ∈ s -> (lenN x < u16_mod)%N) /\
    (1 + lenN (payload_set (elements s)) < u32_mod)%N
  | RValue (VBytes bs) => (5 + lenN bs < u32_mod)%N
  | RValue (VString s) => (5 + lenN s < u32_mod)%N
  | _ => True
  end.

(** Every part fits the field for its length or number; the whole may be of any length. *)
Definition parts_fit (r : response) : Prop :=
  match r with
  | RValue (VList l) => (lenN l < u16_mod)%N /\ forall x, x ∈ l -> (lenN x < u32_mod)%N
  | RValue (VMap m) =>
    (N.of_nat (size m) < u16_mod)%N /\
    forall k v, m !! k = Some v -> (lenN k < 256)%N /\ (lenN v < u32_mod)%N
  | RValue (VSet s) => (N.of_nat (size s) < u16_mod)%N /\ forall x, x ∈ s -> (lenN x < u16_mod)%N
  | RValue (VBytes bs) => (lenN bs < u32_mod)%N
  | RValue (VString s) => (lenN s < u32_mod)%N
  | _ => True
  end.

(** The length of the message as the writer adds it up, from lengths cut to 32 bits. *)
Definition added_up (r : response) : N :=
  let sum := fold_right N.add 0%N in
  match r with
  | RValue (VList l) => 3 + sum (map (fun x => 4 + lenN x mod u32_mod) l)
  | RValue (VMap m) =>
    3 + sum (map (fun kv => 5 + lenN kv.1 mod u32_mod + lenN kv.2 mod u32_mod) (map_to_list m))
  | RValue (VSet s) => 3 + sum (map (fun x => 2 + lenN x mod u32_mod) (elements s))
  | RValue (VBytes bs) => 5 + lenN bs mod u32_mod
  | RValue (VString s) => 5 + lenN s mod u32_mod
  | _ => 0
  end%N.

(** What a debug build refuses to write: the added lengths, or the number of list items, overflow. *)
Definition refused (dbg : bool) (r : response) : Prop :=
  dbg = true /\
  ((u32_mod <= added_up r)%N \/
   match r with RValue (VList l) => (u16_mod <= lenN l)%N | _ => False end).

(** What Rust's types guarantee of a response. *)
Definition resp_wf (r : response) : Prop :=
  match r with RValue v => value_wf v | _ => True end.

(** The empty values the parser does not decode (see C14): the empty list and
    set, and in debug builds empty bytes. *)
Definition undecodable_empty (dbg : bool) (r : response) : bool :=
  match r with
  | RValue (VList []) => true
  | RValue (VSet s) => (size s =? 0)%nat
  | RValue (VBytes []) => dbg
  | _ => false
  end.

(** Writing several responses to one buffer. *)
Fixpoint write_all (e : env) (rs : list response) (to : bytes) : outcome bytes :=
  match rs with
  | [] => Ok to
  | r :: rest => obind (copy_to e r to) (fun to => write_all e rest to)
  end.

(** Cut a stream into frames by their length fields; [None] if it does not end
    with a whole frame. *)
Fixpoint cut_frames (fuel : nat) (s : bytes) : option (list bytes) :=
  match fuel with
  | O => None
  | S f =>
    match s with
    | [] => Some []
    | _ =>
      let n := (4 + be_dec (take 4 s))%N in
      if (4 <=? lenN s)%N && (n <=? lenN s)%N then
        match cut_frames f (drop (N.to_nat n) s) with
        | Some l => Some (take (N.to_nat n) s :: l)
        | None => None
        end
      else None
    end
  end.

(** Feeding one response parser a sequence of buffers. *)
Fixpoint resp_feeds (dbg : bool) (x : resp_ctx) (bufs : list bytes)
  : resp_ctx * list resp_feed_res :=
  match bufs with
  | [] => (x, [])
  | b :: rest =>
    let '(x, a) := resp_feed dbg x b in
    let '(x, l) := resp_feeds dbg x rest in
    (x, a :: l)
  end.

(** ** Which responses crash a client's parser *)

(** [buf] starts with a whole message: four bytes that say how long the rest is, a byte for the kind,
    and at least the rest of what was announced. *)
Definition message_in (buf : bytes) (kind : byte) (rest : bytes) : Prop :=
  exists h, buf = h ++ kind :: rest /\ lenN h = 4%N /\ (be_dec h <= 1 + lenN rest)%N.

(** (!) An error of an unknown number; in debug builds also a collection that ends before its
    number of items, bytes or a string that end within their length, and empty bytes. *)
Definition crashes (dbg : bool) (buf : bytes) : Prop :=
  exists kind rest, message_in buf kind rest /\
  match response_type_of_u8 (b2n kind) with
  | Some RTDispatchError =>
    exists code r, rest = code :: r /\ dispatch_error_of_u8 (b2n code) = None
  | Some RTParseError =>
    exists code r, rest = code :: r /\ parse_error_of_u8 (b2n code) = None
  | Some RTList | Some RTMap | Some RTSet => dbg = true /\ (lenN rest < 2)%N
  | Some RTString => dbg = true /\ (1 <= lenN rest < 4)%N
  | Some RTBytes =>
    dbg = true /\ ((1 <= lenN rest < 4)%N \/ take 4 rest = [x00; x00; x00; x00])
  | _ => False
  end.

(** (!) Bytes or a string that end before their length. *)
Definition stalls (buf : bytes) : Prop :=
  exists kind, message_in buf kind [] /\
  (response_type_of_u8 (b2n kind) = Some RTBytes \/ response_type_of_u8 (b2n kind) = Some RTString).
