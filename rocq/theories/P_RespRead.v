(** Property C99: what bytes a response parser accepts and refuses.  The vocabulary is in
    [RespReadSpec]. *)
From Coq Require Import String.
From Verif Require Import Bytes BytesFacts Value CommandId Response RespContext WireSpec Utf8Spec
  RespReadSpec RespExact RespRead.
From stdpp Require Import gmap list.
From Coq Require Import NArith ZArith Lia.
From Coq.Init Require Import Byte.

(** C99: a new parser given any bytes returns a response exactly when they start with a whole message
    that spells it. *)
Theorem C99_accepts :
  forall dbg buf r,
  (resp_feed dbg resp_ctx_new buf).2 = PConcluded r <-> accepted dbg buf r.
Proof. exact c99_accepts. Qed.
Print Assumptions C99_accepts.

(** C99: it gives an error exactly when they start with a whole message of no known kind, or with a
    string that is not UTF-8. *)
Theorem C99_rejects :
  forall dbg buf err,
  (resp_feed dbg resp_ctx_new buf).2 = PError err <-> rejected buf err.
Proof. exact c99_rejects. Qed.
Print Assumptions C99_rejects.

(** C99: in all other cases but those in which it crashes (C16), it asks for more bytes. *)
Theorem C99_asks :
  forall dbg buf,
  (exists n, (resp_feed dbg resp_ctx_new buf).2 = PReadBytes n) <->
  (forall r, ~ accepted dbg buf r) /\ (forall err, ~ rejected buf err) /\ ~ crashes dbg buf.
Proof. exact c99_asks. Qed.
Print Assumptions C99_asks.

(** C99: no bytes spell two responses. *)
Theorem C99_unambiguous :
  forall dbg buf r r',
  accepted dbg buf r -> accepted dbg buf r' -> r = r'.
Proof. exact c99_unambiguous. Qed.
Print Assumptions C99_unambiguous.

(** A set in which a member comes twice, and bytes after it; a number; a string that is not text;
    a kind that does not exist. *)
Example C99_nonvacuous :
  accepted true ([x00; x00; x00; n2b 13; n2b 6; x00; n2b 2] ++ [x00; n2b 1; x61] ++ [x00; n2b 1; x61] ++
                 [x00; n2b 2; x62; x63] ++ [x64])
    (RValue (VSet (list_to_set [[x61]; [x61]; [x62; x63]]))) /\
  accepted false ([x00; x00; x00; n2b 9; n2b 3] ++ i64_enc (-5)) (RValue (VInteger (-5))) /\
  rejected [x00; x00; x00; n2b 6; n2b 7; x00; x00; x00; n2b 1; xff] XStringInvalid /\
  rejected [x00; x00; x00; n2b 1; n2b 10] XResponseTypeInvalid.
Proof.
  split_and!.
  - exists RTSet, (n2b 6). eexists. split; [exists [x00; x00; x00; n2b 13]; split; [reflexivity|split; [done|by vm_compute]]|].
    split; [done|]. exists 2%N, [[x61]; [x61]; [x62; x63]], [x64]. split_and!; try done.
    + repeat constructor.
    + split; [by vm_compute|]. exists [[x61]; [x61]], [x62; x63]. split; [done|]. set_solver.
  - exists RTInteger, (n2b 3). eexists. split; [exists [x00; x00; x00; n2b 9]; split; [reflexivity|split; [done|by vm_compute]]|].
    split; [done|]. exists (-5)%Z, []. split; [by rewrite app_nil_r|]. split; [by vm_compute|done].
  - rewrite <-(c99_rejects true). by vm_compute.
  - rewrite <-(c99_rejects true). by vm_compute.
Qed.
