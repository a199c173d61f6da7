(** How many bytes a response parser asks for (C122). *)
From Verif Require Import Bytes Value CommandId Response RespContext WireSpec RespReadSpec.
From stdpp Require Import gmap list.
From Coq Require Import NArith.

(** A field of [w] bytes that says how much follows, of which [rest] has come. (!) The parser forgets that it is
    past the five bytes of the header: it asks for nothing, crashes in debug builds, or asks for nearly 2^64 bytes. *)
Definition short_field (dbg : bool) (w : N) (rest : bytes) (n : N) : Prop :=
  (lenN rest < w)%N /\ (dbg = false \/ w = 4%N /\ rest = []) /\ n = ((u64_mod + w - (4 + lenN rest)) mod u64_mod)%N.

(** [t] is the beginning of bytes behind their length, in a field of [w] bytes; what is asked for is what is
    missing of the length, or of the bytes. *)
Definition short_item (w : nat) (t : bytes) (n : N) : Prop :=
  ((lenN t < N.of_nat w)%N /\ n = (N.of_nat w - lenN t)%N) \/
  exists m u, t = be_enc w m ++ u /\ (m < 256 ^ N.of_nat w)%N /\ (lenN u < m)%N /\ n = (m - lenN u)%N.

(** (!) The same for a member of a set, except that [at_], where the member's bytes start in the message, is added to
    what is missing of these. *)
Definition short_member (at_ : N) (t : bytes) (n : N) : Prop :=
  ((lenN t < 2)%N /\ n = (2 - lenN t)%N) \/
  exists m u, t = be_enc 2 m ++ u /\ (m < u16_mod)%N /\ (lenN u < m)%N /\ n = (m - lenN u + (at_ + 2))%N.

(** (!) For an entry of a map, which starts at [at_], the parser adds where the key, the entry or the value starts. *)
Definition short_entry (at_ : N) (t : bytes) (n : N) : Prop :=
  (t = [] /\ n = 1%N) \/
  (exists m u, t = be_enc 1 m ++ u /\ (m < 256)%N /\ (lenN u < m)%N /\ n = (m - lenN u + (at_ + 1))%N) \/
  (exists key u, t = be_enc 1 (lenN key) ++ key ++ u /\ (lenN key < 256)%N /\ (lenN u < 4)%N /\
     n = (4 - lenN u + at_)%N) \/
  (exists key m u, t = be_enc 1 (lenN key) ++ key ++ be_enc 4 m ++ u /\ (lenN key < 256)%N /\ (m < u32_mod)%N /\
     (lenN u < m)%N /\ n = (m - lenN u + (at_ + 1 + lenN key + 4))%N).

(** What is asked for when [rest] follows the kind. *)
Definition asks_within (dbg : bool) (k : response_type) (rest : bytes) (n : N) : Prop :=
  match k with
  | RTBoolean | RTParseError | RTDispatchError => rest = [] /\ n = 1%N
  | RTFloat | RTInteger => (lenN rest < 8)%N /\ n = 1%N
  | RTBytes | RTString =>
    short_field dbg 4 rest n \/
    exists m t, rest = be_enc 4 m ++ t /\ (m < u32_mod)%N /\ (lenN t < m)%N /\ n = (m - lenN t)%N
  | RTList =>
    short_field dbg 2 rest n \/
    exists c l t, rest = be_enc 2 c ++ items l ++ t /\ (c < u16_mod)%N /\
      Forall (fun x => lenN x < u32_mod)%N l /\ (lenN l < N.max 1 c)%N /\ short_item 4 t n
  | RTMap =>
    short_field dbg 2 rest n \/
    exists c l t, rest = be_enc 2 c ++ entries l ++ t /\ (c < u16_mod)%N /\
      Forall (fun kv => lenN kv.1 < 256 /\ lenN kv.2 < u32_mod)%N l /\ (distinct l.*1 < c)%N /\
      short_entry (7 + lenN (entries l)) t n
  | RTSet =>
    short_field dbg 2 rest n \/
    exists c l t, rest = be_enc 2 c ++ members l ++ t /\ (c < u16_mod)%N /\
      Forall (fun x => lenN x < u16_mod)%N l /\ (distinct l < N.max 1 c)%N /\
      short_member (7 + lenN (members l)) t n
  end.

(** What is asked for before a whole message is there: what is missing of the header, of what it announces, or
    the kind, if it announces nothing. *)
Definition asks_before (buf : bytes) (n : N) : Prop :=
  ((lenN buf < 4)%N /\ n = (4 - lenN buf)%N) \/
  (exists h t, buf = h ++ t /\ lenN h = 4%N /\ (lenN t < N.max 1 (be_dec h))%N /\ n = (N.max 1 (be_dec h) - lenN t)%N).

(** The parser does not ask for too much: with fewer bytes than it asks for it is not done. *)
Definition needs_all (dbg : bool) (buf : bytes) (n : N) : Prop :=
  forall s, (lenN s < n)%N -> exists m, (resp_feed dbg resp_ctx_new (buf ++ s)).2 = PReadBytes m.

(** Where in a message, if it ends too soon, the parser still asks for what is missing only: in bytes, strings and
    lists whose length or number is there, in the length of a member of a set, and between the entries of a map. *)
Definition counts_right (k : response_type) (rest : bytes) : Prop :=
  match k with
  | RTBytes | RTString => rest = [] \/ (4 <= lenN rest)%N
  | RTList => (2 <= lenN rest)%N
  | RTSet => exists c l t, rest = be_enc 2 c ++ members l ++ t /\ (c < u16_mod)%N /\
      Forall (fun x => lenN x < u16_mod)%N l /\ (distinct l < N.max 1 c)%N /\ (lenN t < 2)%N
  | RTMap => exists c l, rest = be_enc 2 c ++ entries l /\ (c < u16_mod)%N /\
      Forall (fun kv => lenN kv.1 < 256 /\ lenN kv.2 < u32_mod)%N l /\ (distinct l.*1 < c)%N
  | RTBoolean | RTFloat | RTInteger | RTParseError | RTDispatchError => True
  end.
