(** Facts about the command line. *)
From Coq Require Import String.
From Verif Require Import Bytes BytesFacts Utf8 Utf8Spec Utf8Facts Value CommandId IdsFacts Request
  RequestFacts Prog Commands EngineSpec WireSpec RequestSpec HistorySpec Client ClientSpec
  ClientProps Cli CliSpec.
From stdpp Require Import gmap list.
From Coq Require Import NArith ZArith Lia ZifyBool ZifyNat ZifyN.
From Coq Require DecimalN DecimalNat DecimalPos.
From Coq.Init Require Import Byte.

(** ** Words *)

Lemma split_on_word w : word w -> split_on x20 w = [w].
Proof.
  unfold word. induction w as [|b w IH]; [done|]. intros Hw. cbn.
  rewrite decide_False by set_solver. rewrite IH by set_solver. done.
Qed.

Lemma split_on_app w s : word w -> split_on x20 (w ++ x20 :: s) = w :: split_on x20 s.
Proof.
  unfold word. induction w as [|b w IH]; intros Hw; cbn.
  - by rewrite decide_True.
  - rewrite decide_False by set_solver. by rewrite IH by set_solver.
Qed.

Lemma split_line name words : word name -> Forall word words ->
  split_on x20 (line_of name words) = name :: words.
Proof.
  intros Hn Hw. revert name Hn. induction Hw as [|w words Hw Hws IH]; intros name Hn.
  - unfold line_of. cbn. rewrite app_nil_r. by apply split_on_word.
  - unfold line_of. cbn. rewrite split_on_app by done. f_equal. by apply IH.
Qed.

Lemma split_line_inv s : exists name words, split_on x20 s = name :: words /\
  s = line_of name words /\ word name /\ Forall word words.
Proof.
  induction s as [|b s (name & words & Hs & -> & Hn & Hw)].
  { exists [], []. split_and!; try done. by unfold word; set_solver. }
  cbn. rewrite Hs. destruct (decide (b = x20)) as [->|Hb].
  - exists [], (name :: words). split_and!; [done..| |by constructor]. by unfold word; set_solver.
  - exists (b :: name), words. split_and!; [done..| |done]. unfold word in *. set_solver.
Qed.

(** ** Commands *)

Lemma rsplit_spec c s x y : rsplit c s = (x, y) ->
  c ∉ x /\ match y with Some y => s = y ++ c :: x | None => s = x end.
Proof.
  revert x y. induction s as [|b s IH]; intros x y; cbn.
  { intros [= <- <-]. split; [set_solver|done]. }
  destruct (rsplit c s) as [x' [y'|]].
  - intros [= <- <-]. destruct (IH _ _ eq_refl) as [? ->]. done.
  - destruct (IH _ _ eq_refl) as [? ->]. destruct (decide (b = c)) as [->|Hb]; intros [= <- <-].
    + done.
    + split; [set_solver|done].
Qed.

Lemma rsplit_app c x y : c ∉ x -> rsplit c (y ++ c :: x) = (x, Some y).
Proof.
  intros Hx. induction y as [|b y IH]; cbn.
  - destruct (rsplit c x) as [x' [y'|]] eqn:H; apply rsplit_spec in H as [? ->].
    + set_solver.
    + by rewrite decide_True.
  - by rewrite IH.
Qed.

Lemma key_type_of_text_spec s t : key_type_of_text s = Some t <-> s ∈ type_words t.
Proof.
  split.
  - unfold key_type_of_text, bytes_eqb. intros H.
    repeat match type of H with context [bool_decide (?a = ?b)] => destruct (bool_decide_reflect (a = b)) end;
      cbn in H; try done; injection H as <-; subst; cbn; set_solver.
  - destruct t; cbn; intros H; repeat (apply elem_of_cons in H as [->|H]; [by vm_compute|]);
      by apply elem_of_nil in H.
Qed.

Lemma type_word_colon t n : n ∈ type_words t -> x3a ∉ n.
Proof.
  destruct t; cbn; intros H; repeat (apply elem_of_cons in H as [->|H]; [vm_compute; set_solver|]);
      by apply elem_of_nil in H.
Qed.

Lemma typed_no_name c t n : n ∈ type_words t -> command_id_of_name (command_name c ++ lit ":"%string ++ n) = None.
Proof.
  destruct t; cbn; intros H; repeat (apply elem_of_cons in H as [->|H]; [destruct c; by vm_compute|]);
      by apply elem_of_nil in H.
Qed.

Lemma line_command_spec name c t : (exists ot, line_command name = Some (c, ot) /\ default KTBytes ot = t)
  <-> spelled name c t.
Proof.
  split.
  - intros (ot & H & Ht). unfold line_command in H. destruct (command_id_of_name name) as [c'|] eqn:Hn.
    { injection H as -> <-. apply command_id_name in Hn as ->. cbn in Ht. subst. constructor. }
    destruct (rsplit x3a name) as [x y] eqn:Hr. apply rsplit_spec in Hr as [Hx Hy].
    destruct (key_type_of_text x) as [t'|] eqn:Hk; [|done]. destruct y as [y|]; [|done].
    destruct (command_id_of_name y) as [c'|] eqn:Hc; [|done]. injection H as -> <-. cbn in Ht. subst.
    apply command_id_name in Hc as ->. apply key_type_of_text_spec in Hk.
    exact (spelled_typed c t x Hk).
  - intros [c'|c' t' n Hn]; unfold line_command.
    + exists None. split; [|done]. by rewrite (proj2 (command_id_name _ c')).
    + exists (Some t'). split; [|done]. rewrite (typed_no_name _ _ _ Hn).
      change (lit ":"%string ++ n) with (x3a :: n).
      rewrite rsplit_app by by eapply type_word_colon.
      rewrite (proj2 (key_type_of_text_spec _ _) Hn). by rewrite (proj2 (command_id_name _ c')).
Qed.

Lemma spelled_word name c t : spelled name c t -> word name /\ name <> [].
Proof.
  intros [c'|c' t' n Hn]; unfold word.
  - split; [|by destruct c']. destruct c'; refine (bool_decide_eq_true_1 _ _); by vm_compute.
  - split; [|destruct c'; done].
    destruct t'; cbn in Hn; repeat (apply elem_of_cons in Hn as [->|Hn];
      [destruct c'; refine (bool_decide_eq_true_1 _ _); by vm_compute|]); by apply elem_of_nil in Hn.
Qed.

(** ** Integers *)

Lemma digits_nonneg ds n : digits ds n -> (0 <= n)%Z.
Proof. induction 1; lia. Qed.

Lemma n2b_digit b d : digit b = Some d -> (0 <= d < 10)%Z /\ b = n2b (48 + Z.to_N d).
Proof.
  unfold digit, Utf8.in_range. destruct ((48 <=? b2n b)%N && (b2n b <=? 57)%N) eqn:H; [|done]. intros [= <-]. split; [lia|].
  replace (48 + Z.to_N (Z.of_N (b2n b) - 48))%N with (b2n b) by lia. symmetry. by apply n2b_eq.
Qed.

Lemma digit_n2b d : (0 <= d < 10)%Z -> digit (n2b (48 + Z.to_N d)) = Some d.
Proof.
  intros Hd. unfold digit. rewrite in_range_n2b by lia.
  destruct ((48 <=? 48 + Z.to_N d)%N && (48 + Z.to_N d <=? 57)%N) eqn:H; [|lia].
  f_equal. rewrite b2n_n2b_small by lia. lia.
Qed.

Lemma digits_snoc_inv ds b n : digits (ds ++ [b]) n ->
  exists m d, digits ds m /\ digit b = Some d /\ n = (10 * m + d)%Z.
Proof.
  intros H. inversion H as [E|ds' m d Hds Hd E].
  - by destruct ds.
  - apply app_inj_2 in E as [-> [= <-]]; [|done]. exists m, d. split_and!; [done| |done].
    by apply digit_n2b.
Qed.

Lemma i64_checked_res_spec z r : i64_checked_res z = Some r <-> r = z /\ i64_range z.
Proof.
  unfold i64_checked_res, i64_range. destruct ((- i64_half <=? z)%Z && (z <? i64_half)%Z) eqn:H.
  - split; [intros [= <-]; split; [done|lia]|by intros [-> _]].
  - split; [done|intros [_ ?]; lia].
Qed.

Definition signed (neg : bool) (n : Z) : Z := if neg then (- n)%Z else n.

Lemma digits_app_inv pre s m : digits (pre ++ s) m -> exists n, digits pre n /\ (n <= m)%Z.
Proof.
  revert m. induction s as [|b s IH] using rev_ind; intros m Hm.
  - rewrite app_nil_r in Hm. exists m. split; [done|lia].
  - rewrite app_assoc in Hm. apply digits_snoc_inv in Hm as (m' & d & Hm & Hd & ->).
    destruct (IH _ Hm) as (n & Hn & Hle). exists n. split; [done|].
    apply n2b_digit in Hd as [Hd _]. pose proof (digits_nonneg _ _ Hm). lia.
Qed.

Lemma digits_unique ds n m : digits ds n -> digits ds m -> n = m.
Proof.
  intros Hn. revert m. induction Hn as [|ds n d Hds IH Hd]; intros m Hm.
  - inversion Hm as [|? ? ? ? ? E]; [done|]. by destruct ds.
  - apply digits_snoc_inv in Hm as (m' & d' & Hm' & Hd' & ->). rewrite digit_n2b in Hd' by done.
    injection Hd' as <-. by rewrite (IH _ Hm').
Qed.

Lemma digits_prefix_le pre s n m : digits pre n -> digits (pre ++ s) m -> (n <= m)%Z.
Proof.
  intros Hn Hm. destruct (digits_app_inv _ _ _ Hm) as (n' & Hn' & ?).
  by rewrite (digits_unique _ _ _ Hn Hn').
Qed.

Lemma digits_prefix_digit pre b s m : digit b = None -> digits ((pre ++ [b]) ++ s) m -> False.
Proof.
  intros Hb Hm. destruct (digits_app_inv _ _ _ Hm) as (n' & Hn' & _).
  apply digits_snoc_inv in Hn' as (? & ? & _ & ? & _). congruence.
Qed.

(** What the loop has read so far is [pre], of value [n]. *)
Lemma parse_digits_spec neg s pre n z : digits pre n -> i64_range (signed neg n) ->
  parse_digits neg (signed neg n) s = Some z <->
  (exists m, digits (pre ++ s) m /\ z = signed neg m /\ i64_range z).
Proof.
  revert pre n. induction s as [|b s IH]; intros pre n Hpre Hn; cbn.
  { rewrite app_nil_r. split; [intros [= <-]; by exists n|]. intros (m & Hm & -> & _). do 2 f_equal.
    exact (digits_unique _ _ _ Hpre Hm). }
  replace (pre ++ b :: s) with ((pre ++ [b]) ++ s) by by rewrite <- app_assoc.
  destruct (digit b) as [d|] eqn:Hd.
  - pose proof (n2b_digit _ _ Hd) as [Hd' Hb].
    assert (Hpb : digits (pre ++ [b]) (10 * n + d)) by (rewrite Hb; by constructor).
    assert (Hs : signed neg (10 * n + d) = if neg then (signed neg n * 10 - d)%Z else (signed neg n * 10 + d)%Z)
      by (destruct neg; cbn; lia).
    pose proof (digits_nonneg _ _ Hpre) as Hn0.
    destruct (i64_checked_res (signed neg n * 10)) as [a|] eqn:Ha.
    + apply i64_checked_res_spec in Ha as [-> Ha]. rewrite <- Hs.
      destruct (i64_checked_res (signed neg (10 * n + d))) as [a|] eqn:Ha'.
      * apply i64_checked_res_spec in Ha' as [-> Ha']. by apply IH.
      * split; [done|]. intros (m & Hm & -> & Hr). exfalso.
        assert (10 * n + d <= m)%Z as Hle by by eapply digits_prefix_le.
        assert (~ i64_range (signed neg (10 * n + d))) as Hx.
        { intros Hr'. by rewrite (proj2 (i64_checked_res_spec _ _) (conj eq_refl Hr')) in Ha'. }
        apply Hx. unfold i64_range, i64_half in *. destruct neg; cbn in *; lia.
    + split; [done|]. intros (m & Hm & -> & Hr). exfalso.
      assert (10 * n + d <= m)%Z as Hle by by eapply digits_prefix_le.
      assert (~ i64_range (signed neg n * 10)) as Hx.
      { intros Hr'. by rewrite (proj2 (i64_checked_res_spec _ _) (conj eq_refl Hr')) in Ha. }
      apply Hx. unfold i64_range, i64_half in *. destruct neg; cbn in *; lia.
  - split; [done|]. intros (m & Hm & _). exfalso. by eapply digits_prefix_digit.
Qed.

Lemma digits_head b ds n : digits (b :: ds) n -> b <> x2b /\ b <> x2d.
Proof.
  intros H. destruct (digits_app_inv [b] ds n H) as (m & Hm & _).
  destruct (digits_snoc_inv [] b m Hm) as (? & ? & _ & Hd & _).
  split; intros ->; vm_compute in Hd; done.
Qed.

Lemma parse_i64_spec w z : parse_i64 w = Some z <-> decimal w z /\ i64_range z.
Proof.
  assert (Hp : forall neg s, s <> [] -> parse_digits neg 0 s = Some z <->
    exists m, digits s m /\ z = signed neg m /\ i64_range z).
  { intros neg s _. replace 0%Z with (signed neg 0) by by destruct neg.
    apply (parse_digits_spec neg s [] 0); [constructor|]. unfold i64_range, i64_half. destruct neg; cbn; lia. }
  unfold decimal. destruct w as [|b r].
  { cbn. split; [done|]. intros [(ds & n & _ & Hne & [[H _]|[[H _]|[H _]]]) _]; [by subst|done..]. }
  cbn [parse_i64]. destruct (decide (b = x2b)) as [->|Hplus].
  { change (lit "+"%string) with [x2b]. change (lit "-"%string) with [x2d].
    destruct r as [|b r].
    - split; [done|]. intros [(ds & n & Hds & Hne & [[<- _]|[[[= <-] _]|[[=] _]]]) _]; [|done].
      by apply digits_head in Hds as [? _].
    - rewrite (Hp false) by done. cbn. split.
      + intros (m & Hm & -> & Hr). split; [|done]. exists (b :: r), m. split_and!; [done..|]. by right; left.
      + intros [(ds & n & Hds & Hne & [[<- _]|[[[= <-] ->]|[[=] _]]]) Hr]; [|by exists n].
        by apply digits_head in Hds as [? _]. }
  destruct (decide (b = x2d)) as [->|Hminus].
  { change (lit "+"%string) with [x2b]. change (lit "-"%string) with [x2d].
    destruct r as [|b r].
    - split; [done|]. intros [(ds & n & Hds & Hne & [[<- _]|[[[=] _]|[[= <-] _]]]) _]; [|done].
      by apply digits_head in Hds as [_ ?].
    - rewrite (Hp true) by done. cbn. split.
      + intros (m & Hm & -> & Hr). split; [|done]. exists (b :: r), m. split_and!; [done..|]. by right; right.
      + intros [(ds & n & Hds & Hne & [[<- _]|[[[=] _]|[[= <-] ->]]]) Hr]; [|by exists n].
        by apply digits_head in Hds as [_ ?]. }
  change (lit "+"%string) with [x2b]. change (lit "-"%string) with [x2d].
  rewrite (Hp false) by done. cbn. split.
  - intros (m & Hm & -> & Hr). split; [|done]. exists (b :: r), m. split_and!; [done..|]. by left.
  - intros [(ds & n & Hds & Hne & [[<- ->]|[[[=] _]|[[=] _]]]) Hr]; [by exists n|done..].
Qed.

Lemma digits_push ds n k b : digits ds n -> (0 <= k < 10)%Z -> n2b (48 + Z.to_N k) = b ->
  digits (ds ++ [b]) (10 * n + k).
Proof. intros Hds Hk <-. by constructor. Qed.

Lemma uint_digits_acc d : forall ds p, digits ds (Z.pos p) ->
  digits (ds ++ uint_bytes d) (Z.pos (Pos.of_uint_acc d p)).
Proof.
  induction d as [|d IH|d IH|d IH|d IH|d IH|d IH|d IH|d IH|d IH|d IH]; intros ds p Hds.
  { cbn. by rewrite app_nil_r. }
  all: cbn [uint_bytes Pos.of_uint_acc];
    match goal with |- digits (_ ++ ?b :: _) _ =>
      change (b :: uint_bytes d) with ([b] ++ uint_bytes d) end; rewrite app_assoc; apply IH.
  - replace (Z.pos (10 * p)) with (10 * Z.pos p + 0)%Z by lia. by apply digits_push.
  - replace (Z.pos (1 + 10 * p)) with (10 * Z.pos p + 1)%Z by lia. by apply digits_push.
  - replace (Z.pos (2 + 10 * p)) with (10 * Z.pos p + 2)%Z by lia. by apply digits_push.
  - replace (Z.pos (3 + 10 * p)) with (10 * Z.pos p + 3)%Z by lia. by apply digits_push.
  - replace (Z.pos (4 + 10 * p)) with (10 * Z.pos p + 4)%Z by lia. by apply digits_push.
  - replace (Z.pos (5 + 10 * p)) with (10 * Z.pos p + 5)%Z by lia. by apply digits_push.
  - replace (Z.pos (6 + 10 * p)) with (10 * Z.pos p + 6)%Z by lia. by apply digits_push.
  - replace (Z.pos (7 + 10 * p)) with (10 * Z.pos p + 7)%Z by lia. by apply digits_push.
  - replace (Z.pos (8 + 10 * p)) with (10 * Z.pos p + 8)%Z by lia. by apply digits_push.
  - replace (Z.pos (9 + 10 * p)) with (10 * Z.pos p + 9)%Z by lia. by apply digits_push.
Qed.

Lemma uint_digits d : forall ds, digits ds 0 ->
  digits (ds ++ uint_bytes d) (Z.of_N (Pos.of_uint d)).
Proof.
  induction d as [|d IH|d IH|d IH|d IH|d IH|d IH|d IH|d IH|d IH|d IH]; intros ds Hds.
  { cbn. by rewrite app_nil_r. }
  all: cbn [uint_bytes Pos.of_uint Z.of_N];
    match goal with |- digits (_ ++ ?b :: _) _ =>
      change (b :: uint_bytes d) with ([b] ++ uint_bytes d) end; rewrite app_assoc.
  { apply IH. by apply (digits_push ds 0 0). }
  all: apply uint_digits_acc; change 0%Z with (10 * 0)%Z in Hds.
  - by apply (digits_push ds 0 1).
  - by apply (digits_push ds 0 2).
  - by apply (digits_push ds 0 3).
  - by apply (digits_push ds 0 4).
  - by apply (digits_push ds 0 5).
  - by apply (digits_push ds 0 6).
  - by apply (digits_push ds 0 7).
  - by apply (digits_push ds 0 8).
  - by apply (digits_push ds 0 9).
Qed.

Lemma show_N_digits n : digits (uint_bytes (N.to_uint n)) (Z.of_N n).
Proof.
  pose proof (uint_digits (N.to_uint n) [] digits_nil) as H.
  change (Pos.of_uint (N.to_uint n)) with (N.of_uint (N.to_uint n)) in H.
  by rewrite DecimalN.Unsigned.of_to in H.
Qed.

Lemma show_i64_decimal z : decimal (show_i64 z) z.
Proof.
  unfold show_i64. pose proof (show_N_digits (Z.abs_N z)) as H.
  exists (uint_bytes (N.to_uint (Z.abs_N z))), (Z.of_N (Z.abs_N z)). split; [done|]. split.
  - intros E. rewrite E in H. inversion H as [E'|? ? ? ? ? E']; [|by destruct ds].
    destruct z; [by vm_compute in E|lia..].
  - destruct (z <? 0)%Z eqn:Hz; cbn; [right; right|left]; split; (done || lia).
Qed.

Lemma parse_show z : i64_range z -> parse_i64 (show_i64 z) = Some z.
Proof. intros Hz. apply parse_i64_spec. split; [apply show_i64_decimal|done]. Qed.
