(** Vocabulary for the statements about the request parser. *)
From Verif Require Import Bytes Value CommandId Request ReqContext RequestSpec.
From stdpp Require Import list.
From Coq Require Import NArith.
From Coq.Init Require Import Byte.

(** Feed the buffers one after the other to one parser; the answers in order. *)
Fixpoint req_feeds (x : req_ctx) (bufs : list bytes) : req_ctx * list feed_res :=
  match bufs with
  | [] => (x, [])
  | b :: r =>
    let '(x1, res) := req_feed x b in
    let '(x2, l) := req_feeds x1 r in
    (x2, res :: l)
  end.

(** The parser states a user can produce. *)
Definition req_reachable (x : req_ctx) : Prop :=
  exists bufs, fst (req_feeds req_ctx_new bufs) = x.

(** The buffers of successive calls extend one another. *)
Inductive growing : list bytes -> Prop :=
| growing_nil : growing []
| growing_one b : growing [b]
| growing_cons b s r : growing ((b ++ s) :: r) -> growing (b :: (b ++ s) :: r).

(** Feed buffers until an answer other than "more data needed". *)
Fixpoint first_answer (x : req_ctx) (bufs : list bytes) : option (bytes * feed_res) :=
  match bufs with
  | [] => None
  | b :: r =>
    match req_feed x b with
    | (x1, FNeedMore) => first_answer x1 r
    | (_, res) => Some (b, res)
    end
  end.

(** Two answers are the same up to the buffer the request borrows. *)
Definition same_answer (a b : feed_res) : Prop :=
  match a, b with
  | FNeedMore, FNeedMore => True
  | FRequest r1, FRequest r2 =>
    r_command r1 = r_command r2 /\ r_key_type r1 = r_key_type r2
    /\ arg_count r1 = arg_count r2 /\ forall i, arg r1 i = arg r2 i
  | FError e1, FError e2 => e1 = e2
  | FPanic, FPanic => True
  | _, _ => False
  end.

(** ** What every input is read as *)

(** The bytes hold [n] arguments: each a length of four bytes and that many bytes.  (!) Of the last
    one up to four bytes may still be missing. *)
Inductive holds : nat -> bytes -> Prop :=
| holds_none rest : holds 0 rest
| holds_last h t : lenN h = 4%N -> (be_dec h <= 4 + lenN t)%N -> holds 1 (h ++ t)
| holds_more n h a rest : lenN h = 4%N -> lenN a = be_dec h -> holds n rest ->
    holds (S n) (h ++ a ++ rest).

(** What a new parser says to the bytes [buf]: the first byte is the command, the second the number
    of arguments.  (!) A set high bit announces a key type and is refused; 257 arguments after the
    number 0 crash it. *)
Definition read_as (buf : bytes) (r : feed_res) : Prop :=
  match buf with
  | [] => r = FNeedMore
  | b :: rest =>
    if (128 <=? b2n b)%N then r = FError PEKeyTypeInvalid
    else match command_id_of_u8 (b2n b) with
    | None => r = FError PECommandIdInvalid
    | Some c =>
      if is_simple c then r = FRequest (Request buf c None [])
      else match rest with
      | [] => r = FNeedMore
      | n :: args =>
        let enough := holds (if decide (n = x00) then 257 else N.to_nat (b2n n)) args in
        (enough /\ r = if decide (n = x00) then FPanic else FRequest (Request buf c None [])) \/
        (~ enough /\ r = FNeedMore)
      end
    end
  end.

(** The message crashes a new parser. *)
Definition overfull (m : bytes) : Prop :=
  exists b c args, m = b :: x00 :: args /\ command_id_of_u8 (b2n b) = Some c /\
    is_simple c = false /\ holds 257 args.
