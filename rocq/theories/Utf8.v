(** UTF-8 validation and character counting, as in Rust's core library
    ([str::from_utf8], [str::chars().count()]). *)
From Verif Require Import Bytes.
From stdpp Require Import list.
From Coq Require Import NArith.

(** A byte between two bounds (helper for [core::str::from_utf8], used in engine/src/command/request/mod.rs:91). *)
Definition in_range (lo hi : N) (b : byte) : bool :=
  ((lo <=? b2n b) && (b2n b <=? hi))%N.

(** A continuation byte, [10xxxxxx] (helper for [core::str::from_utf8], used in engine/src/command/request/mod.rs:91). *)
Definition is_cont (b : byte) : bool := in_range 128 191 b.

(** [core::str::from_utf8(bs).is_ok()] (Unicode standard, table 3-7). *)
Fixpoint utf8_valid (bs : bytes) : bool :=
  match bs with
  | [] => true
  | b0 :: r0 =>
    if in_range 0 127 b0 then utf8_valid r0
    else if in_range 194 223 b0 then
      match r0 with
      | b1 :: r1 => is_cont b1 && utf8_valid r1
      | [] => false
      end
    else if in_range 224 239 b0 then
      match r0 with
      | b1 :: b2 :: r2 =>
        (if in_range 224 224 b0 then in_range 160 191 b1
         else if in_range 237 237 b0 then in_range 128 159 b1
         else is_cont b1)
        && is_cont b2 && utf8_valid r2
      | _ => false
      end
    else if in_range 240 244 b0 then
      match r0 with
      | b1 :: b2 :: b3 :: r3 =>
        (if in_range 240 240 b0 then in_range 144 191 b1
         else if in_range 244 244 b0 then in_range 128 143 b1
         else is_cont b1)
        && is_cont b2 && is_cont b3 && utf8_valid r3
      | _ => false
      end
    else false
  end.

(** [core::str::from_utf8(bs).ok()];
    used in engine/src/command/request/mod.rs:91, engine/src/command/impl/append.rs:49, engine/src/command/response/context.rs:518. *)
Definition from_utf8 (bs : bytes) : option bytes :=
  if utf8_valid bs then Some bs else None.

(** [s.chars().count()]: core counts the bytes that are not continuation
    bytes; used in engine/src/command/impl/length.rs:63. *)
Definition char_count (bs : bytes) : N :=
  lenN (filter (fun b => is_cont b = false) bs).
