(** Lemmas behind C37 and C38. *)
From Verif Require Import Bytes BytesFacts Value CommandId Response Metrics IdSpec.
From stdpp Require Import gmap list.
From Coq Require Import NArith ZArith Lia.

(** A byte decoder that accepts exactly the codes of an encoder is settled by
    checking the codes and the rejected bytes. *)
Ltac byte_cases n :=
  destruct n as [|p]; [|do 9 (try (destruct p as [p|p|]))].

Lemma command_id_u8 n c : command_id_of_u8 n = Some c <-> n = command_id_to_u8 c.
Proof.
  split.
  - intros H. byte_cases n; cbn in H; try discriminate H; by injection H as <-.
  - intros ->. by destruct c.
Qed.

Lemma key_type_u8 n c : key_type_of_u8 n = Some c <-> n = key_type_to_u8 c.
Proof.
  split.
  - intros H. byte_cases n; cbn in H; try discriminate H; by injection H as <-.
  - intros ->. by destruct c.
Qed.

Lemma response_type_u8 n c : response_type_of_u8 n = Some c <-> n = response_type_to_u8 c.
Proof.
  split.
  - intros H. byte_cases n; cbn in H; try discriminate H; by injection H as <-.
  - intros ->. by destruct c.
Qed.

Lemma dispatch_error_u8 n c :
  dispatch_error_of_u8 n = Some c <-> n = dispatch_error_to_u8 c.
Proof.
  split.
  - intros H. byte_cases n; cbn in H; try discriminate H; by injection H as <-.
  - intros ->. by destruct c.
Qed.

Lemma parse_error_u8 n c : parse_error_of_u8 n = Some c <-> n = parse_error_to_u8 c.
Proof.
  split.
  - intros H. byte_cases n; cbn in H; try discriminate H; by injection H as <-.
  - intros ->. by destruct c.
Qed.

Lemma metric_u8 n c : metric_of_u8 n = Some c <-> n = metric_to_u8 c.
Proof.
  split.
  - intros H. byte_cases n; cbn in H; try discriminate H; by injection H as <-.
  - intros ->. by destruct c.
Qed.

Lemma command_id_name s c : command_id_of_name s = Some c <-> s = command_name c.
Proof.
  split.
  - unfold command_id_of_name, bytes_eqb. intros H.
    repeat (case_bool_decide as E; [injection H as <-; exact E|clear E]). done.
  - intros ->. by destruct c.
Qed.

Lemma command_id_u8_small c : (command_id_to_u8 c < 128)%N.
Proof. by destruct c. Qed.

Lemma c38_own_kind v :
  (is_Some (as_boolean v) <-> kind v = KTBoolean) /\
  (is_Some (as_bytes v) <-> kind v = KTBytes) /\
  (is_Some (as_float v) <-> kind v = KTFloat) /\
  (is_Some (as_integer v) <-> kind v = KTInteger) /\
  (is_Some (as_list v) <-> kind v = KTList) /\
  (is_Some (as_map v) <-> kind v = KTMap) /\
  (is_Some (as_set v) <-> kind v = KTSet) /\
  (is_Some (as_string v) <-> kind v = KTString) /\
  (is_boolean v = true <-> kind v = KTBoolean) /\
  (is_bytes v = true <-> kind v = KTBytes) /\
  (is_float v = true <-> kind v = KTFloat) /\
  (is_integer v = true <-> kind v = KTInteger) /\
  (is_list v = true <-> kind v = KTList) /\
  (is_map v = true <-> kind v = KTMap) /\
  (is_set v = true <-> kind v = KTSet).
Proof.
  destruct v; cbn; repeat split; intros H; try done; try (by destruct H); eauto.
Qed.

Lemma c38_content v :
  (forall x, as_boolean v = Some x <-> v = VBoolean x) /\
  (forall x, as_bytes v = Some x <-> v = VBytes x) /\
  (forall x, as_float v = Some x <-> v = VFloat x) /\
  (forall x, as_integer v = Some x <-> v = VInteger x) /\
  (forall x, as_list v = Some x <-> v = VList x) /\
  (forall x, as_map v = Some x <-> v = VMap x) /\
  (forall x, as_set v = Some x <-> v = VSet x) /\
  (forall x, as_string v = Some x <-> v = VString x).
Proof.
  repeat split; destruct v; cbn; intros H; try done; by injection H as <-.
Qed.

Lemma c38_is_string :
  (forall s, is_string (VString s) = false) /\
  (forall b, is_string (VBoolean b) = true) /\
  ~ (forall v, is_string v = true <-> kind v = KTString).
Proof.
  split; [done|]. split; [done|]. intros H.
  destruct (H (VBoolean true)) as [H' _]. by discriminate H'.
Qed.

(** ** The tables *)

(** The entries of a table are those of a function. *)
Lemma table_fn {A B} (f : A -> B) (table : list (A * B)) (all : list A) :
  (forall a, a ∈ all) -> table ≡ₚ map (fun a => (a, f a)) all ->
  forall a b, f a = b <-> (a, b) ∈ table.
Proof.
  intros Hall Hp a b. rewrite Hp, elem_of_list_fmap. split.
  - intros <-. by exists a.
  - by intros (a' & [= -> ->] & _).
Qed.

Lemma table_fn_eq {A B} (f : A -> B) (table : list (A * B)) (all : list A) :
  (forall a, a ∈ all) -> table = map (fun a => (a, f a)) all ->
  forall a b, f a = b <-> (a, b) ∈ table.
Proof. intros Hall ->. by apply (table_fn f _ all). Qed.


Definition all_commands : list command_id :=
  [CIncrement; CDecrement; CIncrementBy; CDecrementBy; CSet; CGet; CDelete; CExists; CIs;
   CRename; CType; CAppend; CLength; CKeys; CEcho; CStats].

Lemma all_commands_all c : c ∈ all_commands.
Proof. apply (bool_decide_eq_true_1 (c ∈ all_commands)). by destruct c. Qed.

Lemma command_tables :
  (forall c n, command_id_to_u8 c = n <-> exists s, (c, n, s) ∈ command_table) /\
  (forall c n, command_id_of_u8 n = Some c <-> exists s, (c, n, s) ∈ command_table) /\
  (forall c b, command_name c = b <-> exists n s, (c, n, s) ∈ command_table /\ b = lit s) /\
  (forall c b, command_id_of_name b = Some c <-> exists n s, (c, n, s) ∈ command_table /\ b = lit s).
Proof.
  assert (H1 : forall c n, command_id_to_u8 c = n <-> exists s, (c, n, s) ∈ command_table).
  { intros c n. rewrite (table_fn_eq command_id_to_u8 (map fst command_table) all_commands
      all_commands_all); [|reflexivity]. rewrite elem_of_list_fmap. split.
    - intros ([[c' n'] s] & [= -> ->] & H). by exists s.
    - intros [s H]. by exists (c, n, s). }
  assert (H2 : forall c b, command_name c = b <-> exists n s, (c, n, s) ∈ command_table /\ b = lit s).
  { intros c b. rewrite (table_fn_eq command_name (map (fun x => (x.1.1, lit x.2)) command_table)
      all_commands all_commands_all); [|reflexivity]. rewrite elem_of_list_fmap. split.
    - intros ([[c' n'] s] & [= -> ->] & H). by exists n', s.
    - intros (n & s & H & ->). by exists (c, n, s). }
  split; [exact H1|]. split; [|split; [exact H2|]].
  - intros c n. rewrite command_id_u8, <-H1. split; congruence.
  - intros c b. rewrite command_id_name, <-H2. split; congruence.
Qed.

Lemma code_tables :
  (forall t n, key_type_to_u8 t = n <-> (t, n) ∈ key_type_table) /\
  (forall t n, key_type_of_u8 n = Some t <-> (t, n) ∈ key_type_table) /\
  (forall t n, response_type_to_u8 t = n <-> (t, n) ∈ response_type_table) /\
  (forall t n, response_type_of_u8 n = Some t <-> (t, n) ∈ response_type_table) /\
  (forall t n, dispatch_error_to_u8 t = n <-> (t, n) ∈ dispatch_error_table) /\
  (forall t n, dispatch_error_of_u8 n = Some t <-> (t, n) ∈ dispatch_error_table) /\
  (forall t n, parse_error_to_u8 t = n <-> (t, n) ∈ parse_error_table) /\
  (forall t n, parse_error_of_u8 n = Some t <-> (t, n) ∈ parse_error_table).
Proof.
  assert (Hk : forall t n, key_type_to_u8 t = n <-> (t, n) ∈ key_type_table).
  { apply (table_fn_eq key_type_to_u8 _ (map fst key_type_table)); [|reflexivity].
    intros t. apply (bool_decide_eq_true_1 (t ∈ _)). by destruct t. }
  assert (Hr : forall t n, response_type_to_u8 t = n <-> (t, n) ∈ response_type_table).
  { apply (table_fn_eq response_type_to_u8 _ (map fst response_type_table)); [|reflexivity].
    intros []; cbn; repeat first [by left|right]. }
  assert (Hd : forall t n, dispatch_error_to_u8 t = n <-> (t, n) ∈ dispatch_error_table).
  { apply (table_fn_eq dispatch_error_to_u8 _ (map fst dispatch_error_table)); [|reflexivity].
    intros t. apply (bool_decide_eq_true_1 (t ∈ _)). by destruct t. }
  assert (Hp : forall t n, parse_error_to_u8 t = n <-> (t, n) ∈ parse_error_table).
  { apply (table_fn_eq parse_error_to_u8 _ (map fst parse_error_table)); [|reflexivity].
    intros t. apply (bool_decide_eq_true_1 (t ∈ _)). by destruct t. }
  repeat split; first [apply Hk|apply Hr|apply Hd|apply Hp|idtac].
  all: rewrite <-?Hk, <-?Hr, <-?Hd, <-?Hp.
  all: rewrite ?key_type_u8, ?response_type_u8, ?dispatch_error_u8, ?parse_error_u8; congruence.
Qed.

Lemma name_tables :
  (forall m b, metric_name m = b <-> exists s, (m, s) ∈ metric_table /\ b = lit s) /\
  (forall c, is_simple c = true <-> c = CStats).
Proof.
  split.
  - intros m b. rewrite (table_fn_eq metric_name (map (fun x => (x.1, lit x.2)) metric_table)
      (map fst metric_table)); [| |reflexivity].
    + rewrite elem_of_list_fmap. split.
      * intros ([m' s] & [= -> ->] & H). by exists s.
      * intros (s & H & ->). by exists (m, s).
    + intros x. apply (bool_decide_eq_true_1 (x ∈ _)). by destruct x.
  - by intros [].
Qed.
