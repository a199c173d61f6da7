(** What commands say about their keys and arguments: C109.
    The commands are in [Commands], the vocabulary is in [NotationSpec]. *)
From Coq Require Import String.
From Verif Require Import Bytes BytesFacts Value CommandId Request RequestSpec Prog Commands EngineSpec
  HistorySpec NotationSpec NotationFacts.
From stdpp Require Import gmap list.
From Coq Require Import NArith ZArith Lia.

(** Apart from [append], [set], [delete] and [length], the positions that make a difference are exactly
    the declared ones. *)
Theorem C109_partial :
  forall c i,
  i < 255 -> c <> CAppend -> c <> CSet -> c <> CDelete -> c <> CLength ->
  matters c i <-> declares c i.
Proof. exact c109_exact. Qed.
Print Assumptions C109_partial.

(** [append] and [set] declare two positions, but every position can make a difference. *)
Theorem C109_more_refuted :
  forall c i,
  i < 255 -> c = CAppend \/ c = CSet -> matters c i /\ (declares c i <-> i < 2).
Proof. exact c109_more. Qed.
Print Assumptions C109_more_refuted.

(** [delete] and [length] declare two positions, but only the first can make a difference. *)
Theorem C109_fewer_refuted :
  forall c i,
  c = CDelete \/ c = CLength -> (matters c i <-> i < 1) /\ (declares c i <-> i < 2).
Proof. exact c109_fewer. Qed.
Print Assumptions C109_fewer_refuted.

(** Apart from [append], [delete], [length] and [echo], a request that leaves out something declared
    fails, and changes no key. *)
Theorem C109_left_out_partial :
  forall e s req res c kt l,
  env_ok e -> room s -> asks req c kt l -> leaves_out c l ->
  c <> CAppend -> c <> CDelete -> c <> CLength -> c <> CEcho ->
  exists err, (dispatch e s req res).2 = CErr err res /\ st_keys (dispatch e s req res).1 = st_keys s.
Proof. exact c109_left_out. Qed.
Print Assumptions C109_left_out_partial.

Definition holding (v : value) : store := Store {[lit "k" := v]} ∅.
Definition rel : env := env_std false.

Example C109_nonvacuous :
  (~ declares CStats 0) /\ (declares CGet 0 /\ ~ declares CGet 1) /\
  (declares CRename 1 /\ ~ declares CRename 2) /\ (declares CIncrementBy 1 /\ ~ declares CIncrementBy 2) /\
  (declares CExists 200 /\ declares CEcho 200) /\ (declares CDelete 1 /\ ~ declares CSet 2) /\
  leaves_out CRename [lit "k"] /\ leaves_out CIs [] /\ ~ leaves_out CGet [lit "k"].
Proof.
  unfold declares, leaves_out. cbn. split_and!; try lia; try done.
  - exists 1. lia.
  - exists 0. lia.
  - intros (i & ? & ?). lia.
Qed.

(** (!) Nothing was missing for [append] and [delete], although they declare an argument. *)
Example C109_not_missing :
  (dispatch rel (holding (VInteger 5)) (req_of CDelete None [lit "k"]) []).2 =
    COk [n2b 0; n2b 0; n2b 0; n2b 6; n2b 1; n2b 0; n2b 0; n2b 0; n2b 1; n2b 107] /\
  leaves_out CDelete [lit "k"] /\ leaves_out CAppend [lit "k"] /\
  (dispatch rel (holding (VBytes (lit "v"))) (req_of CAppend None [lit "k"]) []).2 =
    COk [n2b 0; n2b 0; n2b 0; n2b 6; n2b 1; n2b 0; n2b 0; n2b 0; n2b 1; n2b 118].
Proof.
  split_and!; try (vm_compute; reflexivity); exists 1; cbn; lia.
Qed.
