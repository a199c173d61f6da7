(** Key types and values: engine/src/state/mod.rs, engine/src/state/value.rs *)
From Verif Require Import Bytes Utf8 Float64.
From stdpp Require Import gmap list.
From Coq Require Import NArith ZArith.

(** engine/src/state/mod.rs:14-25 *)
Inductive key_type :=
| KTBytes | KTBoolean | KTFloat | KTInteger | KTString | KTList | KTMap | KTSet.

Global Instance key_type_eq_dec : EqDecision key_type.
Proof. solve_decision. Defined.

(** [kt as u8], engine/src/state/mod.rs:16-25 *)
Definition key_type_to_u8 (kt : key_type) : N :=
  match kt with
  | KTBytes => 0 | KTBoolean => 1 | KTFloat => 2 | KTInteger => 3
  | KTString => 4 | KTList => 5 | KTMap => 6 | KTSet => 7
  end.

(** [KeyType::try_from(u8)], engine/src/state/mod.rs:27-45 *)
Definition key_type_of_u8 (n : N) : option key_type :=
  match n with
  | 0 => Some KTBytes | 1 => Some KTBoolean | 2 => Some KTFloat
  | 3 => Some KTInteger | 4 => Some KTString | 5 => Some KTList
  | 6 => Some KTMap | 7 => Some KTSet
  | _ => None
  end%N.

(** engine/src/state/value.rs:5-15.
    [VFloat] holds the 64-bit pattern, [VString] the UTF-8 bytes; [DashMap] and
    [DashSet] are finite maps and sets. *)
Inductive value :=
| VBoolean (b : bool)
| VBytes (bs : bytes)
| VFloat (bits : N)
| VInteger (z : Z)
| VList (l : list bytes)
| VMap (m : gmap bytes bytes)
| VSet (s : gset bytes)
| VString (s : bytes).

Global Instance value_eq_dec : EqDecision value.
Proof. solve_decision. Defined.

(** What Rust's types guarantee of a [Value];
    the [i64] of engine/src/state/value.rs:10, the [f64] of engine/src/state/value.rs:9 and the [String] of engine/src/state/value.rs:14. *)
Definition value_wf (v : value) : Prop :=
  match v with
  | VFloat n => (n < u64_mod)%N
  | VInteger z => i64_range z
  | VString s => utf8_valid s = true
  | _ => True
  end.

(** [Value::kind], engine/src/state/value.rs:18-29 *)
Definition kind (v : value) : key_type :=
  match v with
  | VBoolean _ => KTBoolean
  | VBytes _ => KTBytes
  | VFloat _ => KTFloat
  | VInteger _ => KTInteger
  | VList _ => KTList
  | VMap _ => KTMap
  | VSet _ => KTSet
  | VString _ => KTString
  end.

(** The defaults [Value::boolean()] ... [Value::string()],
    engine/src/state/value.rs:31-33, 53-55, 75-77, 97-99, 119-121, 141-143,
    163-165, 185-187 *)
Definition value_boolean : value := VBoolean false.
(** [Value::bytes], engine/src/state/value.rs:53-55. *)
Definition value_bytes : value := VBytes [].
(** [Value::float], engine/src/state/value.rs:75-77. *)
Definition value_float : value := VFloat f64_zero.
(** [Value::integer], engine/src/state/value.rs:97-99. *)
Definition value_integer : value := VInteger 0.
(** [Value::list], engine/src/state/value.rs:119-121. *)
Definition value_list : value := VList [].
(** [Value::map], engine/src/state/value.rs:141-143. *)
Definition value_map : value := VMap ∅.
(** [Value::set], engine/src/state/value.rs:163-165. *)
Definition value_set : value := VSet ∅.
(** [Value::string], engine/src/state/value.rs:185-187. *)
Definition value_string : value := VString [].

(** [as_*_ref] / [as_*_mut], engine/src/state/value.rs:35-47 *)
Definition as_boolean (v : value) : option bool :=
  match v with VBoolean x => Some x | _ => None end.
(** engine/src/state/value.rs:57-69 *)
Definition as_bytes (v : value) : option bytes :=
  match v with VBytes x => Some x | _ => None end.
(** engine/src/state/value.rs:79-91 *)
Definition as_float (v : value) : option N :=
  match v with VFloat x => Some x | _ => None end.
(** engine/src/state/value.rs:101-113 *)
Definition as_integer (v : value) : option Z :=
  match v with VInteger x => Some x | _ => None end.
(** engine/src/state/value.rs:123-135 *)
Definition as_list (v : value) : option (list bytes) :=
  match v with VList x => Some x | _ => None end.
(** engine/src/state/value.rs:145-157 *)
Definition as_map (v : value) : option (gmap bytes bytes) :=
  match v with VMap x => Some x | _ => None end.
(** engine/src/state/value.rs:167-179 *)
Definition as_set (v : value) : option (gset bytes) :=
  match v with VSet x => Some x | _ => None end.
(** engine/src/state/value.rs:189-201 *)
Definition as_string (v : value) : option bytes :=
  match v with VString x => Some x | _ => None end.

(** [is_*], engine/src/state/value.rs:49-51 *)
Definition is_boolean (v : value) : bool :=
  match v with VBoolean _ => true | _ => false end.
(** engine/src/state/value.rs:71-73 *)
Definition is_bytes (v : value) : bool :=
  match v with VBytes _ => true | _ => false end.
(** engine/src/state/value.rs:93-95 *)
Definition is_float (v : value) : bool :=
  match v with VFloat _ => true | _ => false end.
(** engine/src/state/value.rs:115-117 *)
Definition is_integer (v : value) : bool :=
  match v with VInteger _ => true | _ => false end.
(** engine/src/state/value.rs:137-139 *)
Definition is_list (v : value) : bool :=
  match v with VList _ => true | _ => false end.
(** engine/src/state/value.rs:159-161 *)
Definition is_map (v : value) : bool :=
  match v with VMap _ => true | _ => false end.
(** engine/src/state/value.rs:181-183 *)
Definition is_set (v : value) : bool :=
  match v with VSet _ => true | _ => false end.
(** engine/src/state/value.rs:203-205: the code matches [Value::Boolean]. *)
Definition is_string (v : value) : bool :=
  match v with VBoolean _ => true | _ => false end.
