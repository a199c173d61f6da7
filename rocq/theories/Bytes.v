(** Bytes, slices, big-endian integers and machine arithmetic.

    These are the primitives of Rust's core library that the modelled code uses;
    they carry no code of /repo themselves. *)
From stdpp Require Import gmap list countable.
From Coq Require Import NArith ZArith.
From Coq.Strings Require Import Byte.
From Coq.Strings Require String Ascii.

(** [u8]. *)
Notation byte := Init.Byte.byte.

(** A [u8] buffer: [Vec<u8>], [&[u8]];
    e.g. engine/src/command/request/mod.rs:125, engine/src/command/request/builder.rs:36. *)
Notation bytes := (list byte).
Notation x00 := Init.Byte.x00.

Global Instance byte_eq_dec : EqDecision byte := Byte.byte_eq_dec.
Global Instance byte_countable : Countable byte :=
  inj_countable Byte.to_N Byte.of_N Byte.of_to_N.

(** [b as usize] / [b as u64];
    used in engine/src/command/request/context.rs:174,184, engine/src/command/response/context.rs:136. *)
Definition b2n (b : byte) : N := Byte.to_N b.

(** [n as u8] (truncating cast);
    used in engine/src/command/request/builder.rs:174,187,201, engine/src/command/response/mod.rs:245. *)
Definition n2b (n : N) : byte :=
  match Byte.of_N (n mod 256)%N with
  | Some b => b
  | None => x00
  end.

(** [buf.len()];
    used in engine/src/command/request/builder.rs:246, engine/src/command/response/mod.rs:139. *)
Definition lenN {A} (l : list A) : N := N.of_nat (length l).

(** [slice.get(a..b)]: [None] when [a > b] or [b > len];
    used in engine/src/command/request/context.rs:169,176, engine/src/command/response/context.rs:197. *)
Definition get_range (buf : bytes) (a b : N) : option bytes :=
  if ((a <=? b) && (b <=? lenN buf))%N
  then Some (take (N.to_nat (b - a)) (drop (N.to_nat a) buf))
  else None.

(** [slice.get(a..=b)] (the upper bound is never [usize::MAX] here);
    used in engine/src/command/request/mod.rs:171,176. *)
Definition get_range_incl (buf : bytes) (a b : N) : option bytes :=
  get_range buf a (b + 1)%N.

(** [slice.get(i)];
    used in engine/src/command/request/mod.rs:166, engine/src/command/request/context.rs:147. *)
Definition get_at {A} (l : list A) (i : N) : option A :=
  if (i <? lenN l)%N then l !! N.to_nat i else None.

(** [buf[i] = b]; [None] when out of bounds (Rust panics);
    used in engine/src/command/request/builder.rs:230. *)
Definition set_at (buf : bytes) (i : N) (b : byte) : option bytes :=
  if (i <? lenN buf)%N then Some (<[N.to_nat i := b]> buf) else None.

(** [n.to_be_bytes()] of a [k]-byte unsigned integer;
    used in engine/src/command/request/builder.rs:248, engine/src/command/response/mod.rs:133-290. *)
Fixpoint be_enc (k : nat) (n : N) : bytes :=
  match k with
  | O => []
  | S k' => be_enc k' (n / 256)%N ++ [n2b n]
  end.

(** [uN::from_be_bytes(bs)];
    used in engine/src/command/request/context.rs:174, engine/src/command/response/context.rs:134-459. *)
Definition be_dec (bs : bytes) : N :=
  fold_left (fun acc b => acc * 256 + b2n b)%N bs 0%N.

(** [2^8]: the count of engine/src/command/request/builder.rs:35. *)
Definition u8_mod : N := 256.
(** [2^16]: the item counts of engine/src/command/response/mod.rs:200,240,271. *)
Definition u16_mod : N := 65536.
(** [2^32]: the lengths of engine/src/command/response/mod.rs:133-290, the ids of engine/src/session/manager.rs:13. *)
Definition u32_mod : N := 4294967296.
(** [2^64]: the counters of lib/metrics/src/lib.rs:53-54. *)
Definition u64_mod : N := 18446744073709551616.
(** [2^63]: [i64], engine/src/state/value.rs:10. *)
Definition i64_half : Z := 9223372036854775808.
(** [2^64]: [i64], engine/src/state/value.rs:10. *)
Definition i64_mod : Z := 18446744073709551616.

(** [n as u8], engine/src/command/request/builder.rs:174,187,201, engine/src/command/response/mod.rs:245. *)
Definition as_u8 (n : N) : N := (n mod u8_mod)%N.
(** [n as u16], engine/src/command/response/mod.rs:240,271,274. *)
Definition as_u16 (n : N) : N := (n mod u16_mod)%N.
(** [n as u32], engine/src/command/request/builder.rs:248, engine/src/command/response/mod.rs:139,208,231,246,262,282. *)
Definition as_u32 (n : N) : N := (n mod u32_mod)%N.

(** The range of [i64]; engine/src/state/value.rs:10. *)
Definition i64_range (z : Z) : Prop := (- i64_half <= z < i64_half)%Z.

(** [u64 as i64] and [i64 as u64] (two's complement);
    the bytes of [i64], engine/src/command/request/mod.rs:61, engine/src/command/response/context.rs:244; the [i64::try_from] of engine/src/command/impl/stats.rs:28. *)
Definition i64_of_u64 (n : N) : Z :=
  if (Z.of_N n <? i64_half)%Z then Z.of_N n else (Z.of_N n - i64_mod)%Z.
(** [i64 as u64], as above (engine/src/command/request/builder.rs:172, engine/src/command/response/mod.rs:174). *)
Definition u64_of_i64 (z : Z) : N := Z.to_N (z mod i64_mod)%Z.

(** [i64::to_be_bytes], [i64::from_be_bytes];
    engine/src/command/request/builder.rs:172, engine/src/command/response/mod.rs:174; engine/src/command/request/mod.rs:61, engine/src/command/response/context.rs:244. *)
Definition i64_enc (z : Z) : bytes := be_enc 8 (u64_of_i64 z).
(** [i64::from_be_bytes], engine/src/command/request/mod.rs:61, engine/src/command/response/context.rs:244. *)
Definition i64_dec (bs : bytes) : Z := i64_of_u64 (be_dec bs).

(** A computation that may panic; no counterpart in /repo: the way a Rust function ends. *)
Inductive outcome (A : Type) : Type :=
| Ok (a : A)
| Panic.
Arguments Ok {A} a.
Arguments Panic {A}.

(** Sequencing of the above (no counterpart in /repo). *)
Definition obind {A B} (x : outcome A) (f : A -> outcome B) : outcome B :=
  match x with
  | Ok a => f a
  | Panic => Panic
  end.

(** The same with a pure function (no counterpart in /repo). *)
Definition outmap {A B} (f : A -> B) (x : outcome A) : outcome B :=
  match x with
  | Ok a => Ok (f a)
  | Panic => Panic
  end.

(** [a + b] on an unsigned type with modulus [m]: overflow panics in a debug
    build ([dbg = true]) and wraps in a release build;
    used in engine/src/command/request/builder.rs:258, engine/src/command/response/mod.rs:142,204,210,231,262,285. *)
Definition uadd (m : N) (dbg : bool) (a b : N) : outcome N :=
  if (a + b <? m)%N then Ok (a + b)%N
  else if dbg then Panic else Ok ((a + b) mod m)%N.

(** [a - b] on an unsigned type with modulus [m];
    used in engine/src/command/response/context.rs:138,269. *)
Definition usub (m : N) (dbg : bool) (a b : N) : outcome N :=
  if (b <=? a)%N then Ok (a - b)%N
  else if dbg then Panic else Ok ((a + m - b) mod m)%N.

(** Wrap an integer into the [i64] range; used in engine/src/command/impl/increment_by.rs:35. *)
Definition i64_wrap (z : Z) : Z := ((z + i64_half) mod i64_mod - i64_half)%Z.

(** The result [z] of an [i64] operation;
    used in engine/src/command/impl/increment_by.rs:35, decrement_by.rs:15. *)
Definition i64_checked (dbg : bool) (z : Z) : outcome Z :=
  if ((- i64_half <=? z) && (z <? i64_half))%Z then Ok z
  else if dbg then Panic else Ok (i64_wrap z).

(** [debug_assert!(c)];
    used in engine/src/state/mod.rs:133,147,178, engine/src/command/response/context.rs:128-387. *)
Definition debug_assert (dbg : bool) (c : bool) : outcome unit :=
  if dbg && negb c then Panic else Ok tt.

(** ASCII string literal to bytes ([b"..."], ["..."].as_bytes());
    used in engine/src/state/mod.rs:129, engine/src/metrics.rs:19-22. *)
Fixpoint lit (s : String.string) : bytes :=
  match s with
  | String.EmptyString => []
  | String.String c r => Ascii.byte_of_ascii c :: lit r
  end.

(** [slice.starts_with(p)]; used in engine/src/state/mod.rs:129,143,174. *)
Fixpoint starts_with (l p : bytes) {struct p} : bool :=
  match p, l with
  | [], _ => true
  | x :: p', y :: l' => Byte.eqb x y && starts_with l' p'
  | _ :: _, [] => false
  end.

(** The build profile and the iteration order of hash maps and sets.
    [debug]: overflow checks and [debug_assert!] are on.
    [map_iter m], [set_iter s]: the order in which one command iterates over a
    [DashMap]/[DashSet]; any permutation, see [env_ok];
    no counterpart in /repo: the profile is cargo's, the order that of [DashMap::iter], e.g. engine/src/command/response/mod.rs:227,242. *)
Record env := Env {
  debug : bool;
  map_iter : gmap bytes bytes -> list (bytes * bytes);
  set_iter : gset bytes -> list bytes
}.

(** An iteration visits every entry once ([DashMap::iter], e.g. engine/src/command/response/mod.rs:227,242). *)
Definition env_ok (e : env) : Prop :=
  (forall m, map_iter e m ≡ₚ map_to_list m) /\
  (forall s, set_iter e s ≡ₚ elements s).

(** A concrete environment for examples: library order; no counterpart in /repo. *)
Definition env_std (dbg : bool) : env := Env dbg map_to_list elements.
