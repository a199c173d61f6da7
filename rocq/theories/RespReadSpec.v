(** What bytes a response parser takes for which response (C99). *)
From Verif Require Import Bytes Value CommandId Response RespContext WireSpec Utf8Spec.
From stdpp Require Import gmap list.
From Coq Require Import NArith ZArith.

(** The number of each kind. *)
Definition kind_number (k : response_type) : N :=
  match k with
  | RTBoolean => 0 | RTBytes => 1 | RTFloat => 2 | RTInteger => 3 | RTList => 4
  | RTMap => 5 | RTSet => 6 | RTString => 7 | RTParseError => 8 | RTDispatchError => 9
  end%N.

Definition is_text (s : bytes) : Prop := exists cs, spells_chars cs s.

(** Items one after the other, each behind its length. *)
Definition items (l : list bytes) : bytes := concat (map (fun x => be_enc 4 (lenN x) ++ x) l).
Definition members (l : list bytes) : bytes := concat (map (fun x => be_enc 2 (lenN x) ++ x) l).
Definition entries (l : list (bytes * bytes)) : bytes :=
  concat (map (fun kv => be_enc 1 (lenN kv.1) ++ kv.1 ++ be_enc 4 (lenN kv.2) ++ kv.2) l).

Definition distinct (l : list bytes) : N := N.of_nat (size (list_to_set l : gset bytes)).
(** [l] has [n] distinct members, and with its last one it reaches that number. *)
Definition reaches (n : N) (l : list bytes) : Prop :=
  distinct l = n /\ exists first last, l = first ++ [last] /\ last ∉ first.

(** What follows the kind, for each kind.  (!) An empty list or set is taken to have an item; items
    that occur twice in a set, and keys that occur twice in a map, are not counted. *)
Definition reads_as (dbg : bool) (k : response_type) (rest : bytes) (r : response) : Prop :=
  match k with
  | RTBoolean => exists b s, rest = b :: s /\ r = RValue (VBoolean (negb (b2n b =? 0)%N))
  | RTBytes =>
    exists bs s, rest = be_enc 4 (lenN bs) ++ bs ++ s /\ (lenN bs < u32_mod)%N /\
      (dbg = true -> bs <> []) /\ r = RValue (VBytes bs)
  | RTFloat => exists n s, rest = be_enc 8 n ++ s /\ (n < u64_mod)%N /\ r = RValue (VFloat n)
  | RTInteger => exists z s, rest = i64_enc z ++ s /\ i64_range z /\ r = RValue (VInteger z)
  | RTList =>
    exists n l s, rest = be_enc 2 n ++ items l ++ s /\ (n < u16_mod)%N /\
      Forall (fun x => lenN x < u32_mod)%N l /\ lenN l = N.max 1 n /\ r = RValue (VList l)
  | RTMap =>
    exists n l s, rest = be_enc 2 n ++ entries l ++ s /\ (n < u16_mod)%N /\
      Forall (fun kv => lenN kv.1 < 256 /\ lenN kv.2 < u32_mod)%N l /\
      (n = 0%N /\ l = [] \/ reaches n l.*1) /\
      r = RValue (VMap (foldl (fun m kv => <[kv.1 := kv.2]> m) ∅ l))
  | RTSet =>
    exists n l s, rest = be_enc 2 n ++ members l ++ s /\ (n < u16_mod)%N /\
      Forall (fun x => lenN x < u16_mod)%N l /\ reaches (N.max 1 n) l /\
      r = RValue (VSet (list_to_set l))
  | RTString =>
    exists t s, rest = be_enc 4 (lenN t) ++ t ++ s /\ (lenN t < u32_mod)%N /\ is_text t /\
      r = RValue (VString t)
  | RTParseError =>
    exists b s err, rest = b :: s /\ parse_error_of_u8 (b2n b) = Some err /\ r = RParseError err
  | RTDispatchError =>
    exists b s err, rest = b :: s /\ dispatch_error_of_u8 (b2n b) = Some err /\ r = RDispatchError err
  end.

(** [buf] starts with bytes that are taken for [r]. *)
Definition accepted (dbg : bool) (buf : bytes) (r : response) : Prop :=
  exists k kind rest, message_in buf kind rest /\ b2n kind = kind_number k /\ reads_as dbg k rest r.

(** [buf] starts with a whole message that is refused: of no known kind, or a string that is not text. *)
Definition rejected (buf : bytes) (err : resp_error) : Prop :=
  exists kind rest, message_in buf kind rest /\
    ((forall k, b2n kind <> kind_number k) /\ err = XResponseTypeInvalid \/
     b2n kind = kind_number RTString /\
     (exists t s, rest = be_enc 4 (lenN t) ++ t ++ s /\ (lenN t < u32_mod)%N /\ ~ is_text t) /\
     err = XStringInvalid).
