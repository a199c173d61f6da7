(** Sessions added from several clones at once: lemmas for C48. *)
From Verif Require Import Bytes BytesFacts Metrics Session LibSpec LibFacts AddsSpec.
From stdpp Require Import gmap list.
From Coq Require Import NArith ZifyBool ZifyNat ZifyN Lia.

Lemma filter_len_cons {A} (P : A -> bool) (x : A) (l : list A) :
  length (filter (fun x => P x = true) (x :: l)) =
  (if P x then 1 else 0) + length (filter (fun x => P x = true) l).
Proof.
  destruct (P x) eqn:E.
  - by rewrite filter_cons_True.
  - rewrite filter_cons_False; [done|]. by rewrite E.
Qed.

Lemma filter_insert {A} (P : A -> bool) (l : list A) i a a' : l !! i = Some a ->
  length (filter (fun x => P x = true) (<[i := a']> l)) + (if P a then 1 else 0) =
  length (filter (fun x => P x = true) l) + (if P a' then 1 else 0).
Proof.
  revert i; induction l as [|x l IH]; intros [|i] H; [done|done| |].
  - injection H as ->. change (<[0 := a']> (a :: l)) with (a' :: l). rewrite !filter_len_cons. lia.
  - specialize (IH i H). change (<[S i := a']> (x :: l)) with (x :: <[i := a']> l).
    rewrite !filter_len_cons. lia.
Qed.

(** The id of an addition that is midway, and the number it has read. *)
Definition mid_at (a : add_state) : option N :=
  match a with AInserted i | ACounted i | AReload i _ => Some i | _ => None end.
Definition holds_lock (a : add_state) : option N :=
  match a with AInserted i | ACounted i | AReload i _ | AStored i => Some i | _ => None end.

Definition has_counted (a : add_state) : bool :=
  match a with ACounted _ | AReload _ _ | AStored _ | ADone _ => true | _ => false end.
Definition number_counted (l : list add_state) : nat :=
  length (filter (fun a => has_counted a = true) l).

Record adding (l : list add_state) (g : add_shared) (w : option nat) : Prop := Adding {
  ad_live : forall id, is_Some (sm_live (as_sessions g) !! id) <-> (id < N.of_nat (number_added l))%N;
  ad_mid : forall i a, l !! i = Some a -> midway a = true -> w = Some i;
  ad_w : forall i, w = Some i -> exists a, l !! i = Some a /\ mid_at a = Some (sm_next (as_sessions g));
  ad_next : N.of_nat (number_added l) =
            (sm_next (as_sessions g) + (if w then 1 else 0))%N;
  ad_reload : forall i at_ n, l !! i = Some (AReload at_ n) -> n = sm_next (as_sessions g);
  ad_entry : forall i t id at_, l !! i = Some (AEntry t id at_) -> (at_ <= sm_next (as_sessions g))%N;
  ad_count : (default 0 (as_counters g !! MSessionsStarted) = N.of_nat (number_counted l))%N;
  ad_lock : forall id, id ∈ as_locked g -> exists i a, l !! i = Some a /\ holds_lock a = Some id
}.

Lemma number_added_le l : number_added l <= length l.
Proof. apply filter_length. Qed.

Lemma number_counted_le l : number_counted l <= length l.
Proof. apply filter_length. Qed.

Lemma adding_start tokens : adding (adds_start tokens).1 (adds_start tokens).2 None.
Proof.
  assert (H : forall i a, (adds_start tokens).1 !! i = Some a -> exists t, a = AStart t).
  { intros i a. cbn. change (map AStart tokens) with (AStart <$> tokens). rewrite list_lookup_fmap.
    destruct (tokens !! i); [|done]. intros [= <-]. by eexists. }
  assert (Hn : number_added (adds_start tokens).1 = 0).
  { clear H. cbn. unfold number_added. induction tokens as [|t r IH]; [done|]. exact IH. }
  split; rewrite ?Hn; cbn [snd adds_start as_sessions sm_live sm_next as_counters as_locked].
  - intros id. change (sm_live sessions_new) with (∅ : gmap N session). rewrite lookup_empty.
    split; [by intros [? ?]|lia].
  - intros i a Hi Ha. destruct (H i a Hi) as [t ->]. done.
  - done.
  - done.
  - intros i at_ n Hi. by destruct (H _ _ Hi).
  - intros i t id at_ Hi. by destruct (H _ _ Hi).
  - clear H Hn. rewrite lookup_empty. cbn. unfold number_counted. induction tokens as [|t r IH]; [done|]. exact IH.
  - intros id Hid. by apply elem_of_empty in Hid.
Qed.

Lemma midway_at a : midway a = true <-> is_Some (mid_at a).
Proof. destruct a; cbn; split; try done; try (by eexists); by intros [? ?]. Qed.

(** What one step can be. *)
Lemma adds_step_inv dbg i x y : adds_step dbg i x = Some y ->
  exists a a' g', x.1 !! i = Some a /\ add_step dbg a x.2 = Some (a', g') /\ y = (<[i := a']> x.1, g').
Proof.
  unfold adds_step. destruct (x.1 !! i) as [a|] eqn:Ha; [|done].
  destruct (add_step dbg a x.2) as [[a' g']|] eqn:Hs; [|done]. intros [= <-]. eauto 6.
Qed.

(** A step that neither adds a session nor stores an id. *)
Lemma adding_quiet l g w i a a' g' :
  adding l g w -> l !! i = Some a ->
  has_session a = has_session a' -> mid_at a = mid_at a' ->
  as_sessions g' = as_sessions g -> 
  (default 0 (as_counters g' !! MSessionsStarted) + (if has_counted a then 1 else 0) =
   default 0 (as_counters g !! MSessionsStarted) + (if has_counted a' then 1 else 0))%N ->
  (forall at_ n, a' = AReload at_ n -> n = sm_next (as_sessions g)) ->
  (forall t id at_, a' = AEntry t id at_ -> (at_ <= sm_next (as_sessions g))%N) ->
  (forall id, id ∈ as_locked g' -> id ∈ as_locked g) ->
  (forall id, holds_lock a = Some id -> holds_lock a' = Some id \/ id ∉ as_locked g') ->
  adding (<[i := a']> l) g' w.
Proof.
  intros [H1 H2 H3 H4 H5 H6 H7 H8] Hi Hh Hm Hs Hc Hr He Hl1 Hl2.
  assert (Hlt : i < length l) by (by eapply lookup_lt_Some).
  assert (Hn : number_added (<[i := a']> l) = number_added l).
  { pose proof (filter_insert has_session l i a a' Hi). unfold number_added. rewrite Hh in *. lia. }
  pose proof (filter_insert has_counted l i a a' Hi) as Hk.
  fold (number_counted l) (number_counted (<[i := a']> l)) in Hk.
  assert (Hget : forall j b, <[i := a']> l !! j = Some b -> (j = i /\ b = a') \/ (j <> i /\ l !! j = Some b)).
  { intros j b Hj. destruct (decide (j = i)) as [->|Hne].
    - rewrite list_lookup_insert in Hj by done. left. by injection Hj as <-.
    - rewrite list_lookup_insert_ne in Hj by done. by right. }
  split; rewrite ?Hn, ?Hs; try done.
  - intros j b Hj Hb. destruct (Hget _ _ Hj) as [[-> ->]|[_ Hj']]; [|by eapply H2].
    eapply H2; [done|]. apply midway_at. rewrite Hm. by apply midway_at.
  - intros j Hw. destruct (H3 j Hw) as (b & Hj & Hb). destruct (decide (j = i)) as [->|Hne].
    + exists a'. rewrite list_lookup_insert by done. split; [done|]. rewrite <-Hm. congruence.
    + exists b. by rewrite list_lookup_insert_ne.
  - intros j at_ n Hj. destruct (Hget _ _ Hj) as [[-> E]|[_ Hj']]; [by eapply Hr|by eapply H5].
  - intros j t id at_ Hj. destruct (Hget _ _ Hj) as [[-> E]|[_ Hj']]; [by eapply He|by eapply H6].
  - destruct (has_counted a), (has_counted a'); cbn in Hc, Hk; lia.
  - intros id Hid. destruct (H8 id (Hl1 id Hid)) as (j & b & Hj & Hb).
    destruct (decide (j = i)) as [->|Hne].
    + rewrite Hi in Hj. injection Hj as <-. destruct (Hl2 id Hb) as [?|?]; [|done].
      exists i, a'. by rewrite list_lookup_insert.
    + exists j, b. by rewrite list_lookup_insert_ne.
Qed.

Lemma adding_step dbg i l g w y :
  (N.of_nat (length l) < 2 ^ 32)%N -> adding l g w -> adds_step dbg i (l, g) = Some y ->
  exists w', adding y.1 y.2 w'.
Proof.
  intros Hlen HA H. apply adds_step_inv in H as (a & a' & g' & Hi & Hs & ->). cbn [fst snd] in *.
  assert (Hlt : i < length l) by (by eapply lookup_lt_Some).
  pose proof HA as [H1 H2 H3 H4 H5 H6 H7 H8].
  pose proof (number_added_le l) as Hle.
  destruct a as [t|t id|t id at_|at_|at_|at_ n|at_|id|]; cbn in Hs.
  - injection Hs as <- <-. exists w. by eapply adding_quiet.
  - injection Hs as <- <-. exists w. eapply adding_quiet; try done. by intros t' id' at' [= <- <- <-].
  - destruct (decide _) as [|Hlk]; [done|].
    destruct (sm_live (as_sessions g) !! at_) as [y|] eqn:Hv.
    { injection Hs as <- <-. exists w. by eapply adding_quiet. }
    injection Hs as <- <-.
    assert (Hat : at_ = sm_next (as_sessions g) /\ w = None).
    { pose proof (H6 i t id at_ Hi). assert (~ (at_ < N.of_nat (number_added l))%N).
      { intros Hx. apply H1 in Hx. rewrite Hv in Hx. by destruct Hx. }
      destruct w; [lia|]. split; [lia|done]. }
    destruct Hat as [Hat ->]. exists (Some i).
    assert (Hn : number_added (<[i := AInserted at_]> l) = S (number_added l)).
    { pose proof (filter_insert has_session l i _ (AInserted at_) Hi) as Hf. unfold number_added. cbn in Hf. lia. }
    assert (Hm : number_counted (<[i := AInserted at_]> l) = number_counted l).
    { pose proof (filter_insert has_counted l i _ (AInserted at_) Hi) as Hf. unfold number_counted. cbn in Hf. lia. }
    split; rewrite ?Hn, ?Hm; cbn [as_sessions sm_live sm_next as_counters as_locked].
    + intros id'. destruct (decide (id' = at_)) as [->|Hne].
      * rewrite lookup_insert. split; [|by eexists]. intros _. lia.
      * rewrite lookup_insert_ne by done. rewrite H1. lia.
    + intros j b Hj Hb. destruct (decide (j = i)) as [->|Hne]; [done|].
      rewrite list_lookup_insert_ne in Hj by done. by specialize (H2 j b Hj Hb).
    + intros j [= <-]. eexists. rewrite list_lookup_insert by done. split; [done|]. cbn. by rewrite Hat.
    + lia.
    + intros j at' n Hj. destruct (decide (j = i)) as [->|Hne].
      * by rewrite list_lookup_insert in Hj.
      * rewrite list_lookup_insert_ne in Hj by done. by eapply H5.
    + intros j t' id' at' Hj. destruct (decide (j = i)) as [->|Hne].
      * by rewrite list_lookup_insert in Hj.
      * rewrite list_lookup_insert_ne in Hj by done. by eapply H6.
    + lia.
    + intros id' [->%elem_of_singleton|Hid]%elem_of_union.
      * exists i, (AInserted at_). by rewrite list_lookup_insert.
      * destruct (H8 id' Hid) as (j & b & Hj & Hb). exists j, b.
        rewrite list_lookup_insert_ne; [done|]. intros <-. rewrite Hi in Hj. by injection Hj as <-.
  - assert (Hok : exists c, counters_increment dbg (as_counters g) MSessionsStarted = Ok c /\
      default 0%N (c !! MSessionsStarted) = (default 0 (as_counters g !! MSessionsStarted) + 1)%N).
    { unfold counters_increment, uadd.
      destruct (_ <? _)%N eqn:E.
      - eexists. split; [done|]. rewrite lookup_insert. cbn. done.
      - exfalso. pose proof (number_counted_le l). change (2 ^ 32)%N with 4294967296%N in Hlen.
        unfold u64_mod in E. lia. }
    destruct Hok as (c & Hc & Hcl). rewrite Hc in Hs. injection Hs as <- <-. exists w.
    eapply adding_quiet; try done; cbn [as_counters as_locked has_counted holds_lock]; [lia|].
    intros id [= <-]. by left.
  - injection Hs as <- <-. exists w. eapply adding_quiet; try done; [by intros at' n [= <- <-]|by auto].
  - injection Hs as <- <-. exists None.
    pose proof (H2 i _ Hi eq_refl) as ->. destruct (H3 i eq_refl) as (b & Hb & Hat).
    rewrite Hi in Hb. injection Hb as <-. injection Hat as ->. pose proof (H5 i _ _ Hi) as ->.
    set (k := sm_next (as_sessions g)) in *.
    assert (Hk : u32_succ k = (k + 1)%N).
    { unfold u32_succ, u32_mod. apply N.mod_small. change (2 ^ 32)%N with 4294967296%N in Hlen. lia. }
    pose proof (filter_insert has_session l i _ (AStored k) Hi) as Hf.
    pose proof (filter_insert has_counted l i _ (AStored k) Hi) as Hg. cbn [has_session has_counted] in Hf, Hg.
    assert (Hn : number_added (<[i := AStored k]> l) = number_added l) by (unfold number_added; lia).
    assert (Hm : number_counted (<[i := AStored k]> l) = number_counted l) by (unfold number_counted; lia).
    clear Hf Hg.
    assert (Hget : forall j b, <[i := AStored k]> l !! j = Some b ->
      (j = i /\ b = AStored k) \/ (j <> i /\ l !! j = Some b)).
    { intros j b Hj. destruct (decide (j = i)) as [->|Hne].
      - rewrite list_lookup_insert in Hj by done. left. by injection Hj as <-.
      - rewrite list_lookup_insert_ne in Hj by done. by right. }
    split; rewrite ?Hn, ?Hm; cbn [as_sessions sm_live sm_next as_counters as_locked]; rewrite ?Hk; try done.
    + intros j b Hj Hb. destruct (Hget _ _ Hj) as [[-> ->]|[Hne Hj']]; [done|].
      pose proof (H2 _ _ Hj' Hb) as [= ->]. done.
    + lia.
    + intros j at' n Hj. destruct (Hget _ _ Hj) as [[_ E]|[Hne Hj']]; [done|].
      pose proof (H2 _ _ Hj' eq_refl) as [= ->]. done.
    + intros j t id at' Hj. destruct (Hget _ _ Hj) as [[_ E]|[Hne Hj']]; [done|].
      pose proof (H6 _ _ _ _ Hj'). lia.
    + intros id Hid. destruct (H8 id Hid) as (j & b & Hj & Hb). destruct (decide (j = i)) as [->|Hne].
      * exists i, (AStored k). rewrite list_lookup_insert by done. split; [done|].
        rewrite Hi in Hj. by injection Hj as <-.
      * exists j, b. by rewrite list_lookup_insert_ne.
  - injection Hs as <- <-. exists w. eapply adding_quiet; try done.
    + cbn. intros id Hid. set_solver.
    + intros id [= <-]. right. cbn. set_solver.
  - done.
  - done.
Qed.

Lemma adds_run_app dbg s1 s2 x :
  adds_run dbg (s1 ++ s2) x =
  match adds_run dbg s1 x with Some y => adds_run dbg s2 y | None => None end.
Proof.
  revert x; induction s1 as [|i r IH]; intros x; [done|]. cbn [adds_run app].
  destruct (adds_step dbg i x); [apply IH|done].
Qed.

Lemma adds_run_snoc dbg s k x y : adds_run dbg (s ++ [k]) x = Some y ->
  exists z, adds_run dbg s x = Some z /\ adds_step dbg k z = Some y.
Proof.
  rewrite adds_run_app. destruct (adds_run dbg s x) as [z|]; [|done]. cbn.
  destruct (adds_step dbg k z) eqn:E; [|done]. intros [= <-]. eauto.
Qed.

Lemma adds_run_length dbg s x y : adds_run dbg s x = Some y -> length y.1 = length x.1.
Proof.
  revert x; induction s as [|i r IH]; intros x; cbn [adds_run].
  - by intros [= <-].
  - destruct (adds_step dbg i x) as [z|] eqn:E; [|done]. intros H. rewrite (IH _ H).
    apply adds_step_inv in E as (a & a' & g' & _ & _ & ->). apply insert_length.
Qed.

Lemma start_length tokens : length (adds_start tokens).1 = length tokens.
Proof. apply map_length. Qed.

Lemma adding_run dbg s tokens y :
  (lenN tokens < 2 ^ 32)%N -> adds_run dbg s (adds_start tokens) = Some y ->
  exists w, adding y.1 y.2 w.
Proof.
  intros Hlen. revert y; induction s as [|k s IH] using rev_ind; intros y H.
  - injection H as <-. exists None. apply adding_start.
  - apply adds_run_snoc in H as ([l g] & Hr & Hs). destruct (IH _ Hr) as [w Hw].
    eapply adding_step; [|exact Hw|exact Hs].
    pose proof (adds_run_length _ _ _ _ Hr) as Hl. rewrite start_length in Hl. change (length l = length tokens) in Hl. unfold lenN in Hlen. rewrite <-Hl in Hlen. exact Hlen.
Qed.

Lemma filter_len_none {A} (P Q : A -> bool) (l : list A) :
  Forall (fun a => P a = Q a) l ->
  length (filter (fun x => P x = true) l) = length (filter (fun x => Q x = true) l).
Proof. induction 1 as [|x l H _ IH]; [done|]. rewrite !filter_len_cons, H, IH. done. Qed.

Lemma c48_consecutive dbg (tokens : list bytes) (sched : list nat) l g :
  (lenN tokens < 2 ^ 32)%N -> adds_run dbg sched (adds_start tokens) = Some (l, g) ->
  (forall id, is_Some (sm_live (as_sessions g) !! id) <-> (id < N.of_nat (number_added l))%N) /\
  (Forall (fun a => add_ended a = true) l ->
   sm_next (as_sessions g) = N.of_nat (number_added l) /\
   default 0%N (as_counters g !! MSessionsStarted) = N.of_nat (number_added l) /\
   as_locked g = ∅).
Proof.
  intros Hlen Hr. destruct (adding_run _ _ _ _ Hlen Hr) as [w [H1 H2 H3 H4 H5 H6 H7 H8]]. cbn [fst snd] in *.
  split; [done|]. intros He. rewrite Forall_lookup in He. split; [|split].
  - destruct w as [i|]; [|lia]. destruct (H3 i eq_refl) as (a & Hi & Ha). specialize (He _ _ Hi). by destruct a.
  - rewrite H7. unfold number_counted, number_added. f_equal. apply (filter_len_none has_counted has_session).
    apply Forall_lookup. intros i a Hi. specialize (He _ _ Hi). by destruct a.
  - apply elem_of_equiv_empty_L. intros id Hid. destruct (H8 id Hid) as (i & a & Hi & Ha).
    specialize (He _ _ Hi). by destruct a.
Qed.

Lemma overlapped_more dbg tokens s k i : overlapped dbg tokens s i -> overlapped dbg tokens (s ++ [k]) i.
Proof.
  intros (b & l & g & a & j & c & Hp & H). exists b, l, g, a, j, c. split; [|done].
  etrans; [done|]. by apply prefix_app_r.
Qed.

Lemma adds_overlap dbg tokens s l g :
  (lenN tokens < 2 ^ 32)%N -> adds_run dbg s (adds_start tokens) = Some (l, g) ->
  (forall i, l !! i = Some APanicked -> overlapped dbg tokens s i) /\
  (forall i t id at_, l !! i = Some (AEntry t id at_) -> is_Some (sm_live (as_sessions g) !! at_) ->
   overlapped dbg tokens s i).
Proof.
  intros Hlen. revert l g; induction s as [|k s IH] using rev_ind; intros l g H.
  - injection H as <- <-. split; intros i; change (map AStart tokens) with (AStart <$> tokens);
      rewrite list_lookup_fmap; intros *; by destruct (tokens !! i).
  - pose proof H as Hall. apply adds_run_snoc in H as ([l0 g0] & Hr & Hs).
    destruct (IH _ _ Hr) as [IHp IHe]. destruct (adding_run _ _ _ _ Hlen Hr) as [w Hw].
    pose proof Hw as [H1 H2 H3 H4 H5 H6 H7 H8].
    pose proof (adds_run_length _ _ _ _ Hr) as Hl. rewrite start_length in Hl.
    apply adds_step_inv in Hs as (a & a' & g' & Hk & Hs & [= -> ->]). cbn [fst snd] in *.
    assert (Hlt : k < length l0) by (by eapply lookup_lt_Some).
    assert (Hnow : forall i b j c, <[k := a']> l0 !! i = Some b -> begun b -> add_ended b = false ->
      i <> j -> <[k := a']> l0 !! j = Some c -> midway c = true -> overlapped dbg tokens (s ++ [k]) i).
    { intros i b j c ?????. exists (s ++ [k]), (<[k := a']> l0), g', b, j, c. done. }
    split.
    + intros i Hi. destruct (decide (i = k)) as [->|Hne].
      2: { rewrite list_lookup_insert_ne in Hi by done. by apply overlapped_more, IHp. }
      rewrite list_lookup_insert in Hi by done. injection Hi as ->.
      destruct a as [t|t id|t id at_|at_|at_|at_ n|at_|id|]; cbn in Hs; try done.
      * destruct (decide _); [done|]. destruct (sm_live (as_sessions g0) !! at_) eqn:E; [|done].
        apply overlapped_more. eapply IHe; [done|]. by rewrite E.
      * exfalso. unfold counters_increment, uadd in Hs. destruct (_ <? _)%N eqn:E; [done|].
        pose proof (number_counted_le l0). unfold lenN in Hlen.
        change (2 ^ 32)%N with 4294967296%N in Hlen. unfold u64_mod in E. lia.
    + intros i t id at_ Hi Hlive. destruct (decide (i = k)) as [->|Hne].
      * pose proof Hi as Hi'. rewrite list_lookup_insert in Hi by done. injection Hi as ->.
        destruct a as [t0|t0 id0|t0 id0 at0|at0|at0|at0 n|at0|id0|]; cbn in Hs; try done.
        -- injection Hs as <- <- <- <-. apply H1 in Hlive.
           destruct w as [j|]; [|lia]. destruct (H3 j eq_refl) as (b & Hj & Hb).
           assert (Hjk : k <> j) by (intros <-; rewrite Hk in Hj; by injection Hj as <-).
           eapply (Hnow k _ j b); [exact Hi'|done|done|done| |apply midway_at; by rewrite Hb].
           by rewrite list_lookup_insert_ne.
        -- destruct (decide _); [done|]. by destruct (sm_live (as_sessions g0) !! at0).
        -- by destruct (counters_increment _ _ _).
      * pose proof Hi as Hi'. rewrite list_lookup_insert_ne in Hi by done.
        destruct (sm_live (as_sessions g0) !! at_) as [y|] eqn:E.
        { apply overlapped_more. eapply IHe; [done|]. by rewrite E. }
        destruct a as [t0|t0 id0|t0 id0 at0|at0|at0|at0 n|at0|id0|]; cbn in Hs; try done.
        -- injection Hs as <- <-. rewrite E in Hlive. by destruct Hlive.
        -- injection Hs as <- <-. rewrite E in Hlive. by destruct Hlive.
        -- destruct (decide _); [done|]. destruct (sm_live (as_sessions g0) !! at0).
           { injection Hs as <- <-. rewrite E in Hlive. by destruct Hlive. }
           injection Hs as <- <-.
           eapply (Hnow i _ k (AInserted at0)); [exact Hi'|done|done|done| |done].
           by rewrite list_lookup_insert.
        -- destruct (counters_increment _ _ _); injection Hs as <- <-; cbn in Hlive; rewrite E in Hlive; by destruct Hlive.
        -- injection Hs as <- <-. rewrite E in Hlive. by destruct Hlive.
        -- injection Hs as <- <-. cbn in Hlive. rewrite E in Hlive. by destruct Hlive.
        -- injection Hs as <- <-. cbn in Hlive. rewrite E in Hlive. by destruct Hlive.
Qed.

Lemma c48_overlap dbg (tokens : list bytes) (sched : list nat) l g i :
  (lenN tokens < 2 ^ 32)%N -> adds_run dbg sched (adds_start tokens) = Some (l, g) ->
  l !! i = Some APanicked -> overlapped dbg tokens sched i.
Proof. intros Hlen Hr. by apply (adds_overlap _ _ _ _ _ Hlen Hr). Qed.

(** How many steps an addition has taken, at most. *)
Definition steps_of (a : add_state) : nat :=
  match a with
  | AStart _ => 0 | ALoaded _ _ => 1 | AEntry _ _ _ => 2 | AInserted _ => 3 | ACounted _ => 4
  | AReload _ _ => 5 | AStored _ => 6 | ADone _ | APanicked => 7
  end.
Definition steps (l : list add_state) : nat := sum_list_with steps_of l.

Lemma steps_insert l i a a' : l !! i = Some a ->
  steps (<[i := a']> l) + steps_of a = steps l + steps_of a'.
Proof.
  unfold steps. revert i; induction l as [|x l IH]; intros [|i] H; [done|done| |].
  - injection H as ->. change (<[0 := a']> (a :: l)) with (a' :: l). cbn [sum_list_with]. lia.
  - specialize (IH i H). change (<[S i := a']> (x :: l)) with (x :: <[i := a']> l). cbn [sum_list_with]. lia.
Qed.

Lemma steps_more dbg a g a' g' : add_step dbg a g = Some (a', g') -> steps_of a < steps_of a'.
Proof.
  destruct a; cbn; try done; try (intros [= <- <-]; cbn; lia).
  - destruct (decide _); [done|]. destruct (_ !! _); intros [= <- <-]; cbn; lia.
  - destruct (counters_increment _ _ _); intros [= <- <-]; cbn; lia.
Qed.

Lemma steps_le l : steps l <= 7 * length l.
Proof. unfold steps. induction l as [|a l IH]; cbn [sum_list_with length]; [lia|]. destruct a; cbn [steps_of]; lia. Qed.

Lemma c48_always_ends dbg (tokens : list bytes) (sched : list nat) l g :
  (lenN tokens < 2 ^ 32)%N -> adds_run dbg sched (adds_start tokens) = Some (l, g) ->
  length sched <= 7 * length tokens /\
  (Forall (fun a => add_ended a = true) l \/ exists i, is_Some (adds_run dbg (sched ++ [i]) (adds_start tokens))).
Proof.
  intros Hlen Hr. split.
  - assert (Hs : forall s x y, adds_run dbg s x = Some y -> steps x.1 + length s <= steps y.1).
    { induction s as [|i s IH]; intros x y; cbn [adds_run].
      - intros [= <-]. cbn. lia.
      - destruct (adds_step dbg i x) as [z|] eqn:E; [|done]. intros H. specialize (IH _ _ H).
        apply adds_step_inv in E as (a & a' & g' & Ha & Hs & ->). cbn [fst length] in *.
        pose proof (steps_insert _ _ _ a' Ha). pose proof (steps_more _ _ _ _ _ Hs). lia. }
    specialize (Hs _ _ _ Hr). pose proof (steps_le l). cbn [fst] in Hs.
    pose proof (adds_run_length _ _ _ _ Hr) as Hl. rewrite start_length in Hl. cbn in Hl. lia.
  - destruct (adding_run _ _ _ _ Hlen Hr) as [w [H1 H2 H3 H4 H5 H6 H7 H8]]. cbn [fst snd] in *.
    destruct (decide (Forall (fun a => add_ended a = true) l)) as [?|Hn]; [by left|]. right.
    assert (Hgo : forall i a, l !! i = Some a -> is_Some (add_step dbg a g) ->
      exists i, is_Some (adds_run dbg (sched ++ [i]) (adds_start tokens))).
    { intros i a Hi [[a' g'] Ha]. exists i. rewrite adds_run_app, Hr. cbn. unfold adds_step. cbn.
      rewrite Hi, Ha. by eexists. }
    assert (Hx : exists i a, l !! i = Some a /\ add_ended a = false).
    { clear -Hn. induction l as [|a l IH]; [by destruct Hn|]. destruct (add_ended a) eqn:E.
      - destruct IH as (i & b & ? & ?); [|by exists (S i), b]. intros Hf. apply Hn. by constructor.
      - by exists 0, a. }
    destruct Hx as (i & a & Hi & Ha).
    destruct a as [t|t id|t id at_|at_|at_|at_ n|at_|id|]; try done;
      try (eapply Hgo; [exact Hi|by eexists]).
    + destruct (decide (at_ ∈ as_locked g)) as [Hin|Hnin].
      * destruct (H8 _ Hin) as (j & b & Hj & Hb). eapply Hgo; [exact Hj|].
        destruct b; cbn in Hb |- *; try done; try by eexists.
        destruct (counters_increment _ _ _); by eexists.
      * eapply Hgo; [exact Hi|]. cbn. rewrite decide_False by done. destruct (sm_live (as_sessions g) !! at_); by eexists.
    + eapply Hgo; [exact Hi|]. cbn. destruct (counters_increment _ _ _); by eexists.
Qed.

Lemma live_kept dbg s x y id : adds_run dbg s x = Some y ->
  is_Some (sm_live (as_sessions x.2) !! id) -> is_Some (sm_live (as_sessions y.2) !! id).
Proof.
  revert x; induction s as [|i s IH]; intros x; cbn [adds_run].
  - by intros [= <-].
  - destruct (adds_step dbg i x) as [z|] eqn:E; [|done]. intros H Hx. apply (IH _ H). clear H IH.
    apply adds_step_inv in E as (a & a' & g' & _ & Hs & ->). cbn [snd].
    destruct a as [t|t id0|t id0 at_|at_|at_|at_ n|at_|id0|]; cbn in Hs; try done;
      try (by injection Hs as <- <-).
    + destruct (decide _); [done|]. destruct (sm_live (as_sessions x.2) !! at_) eqn:E;
        injection Hs as <- <-; [done|]. cbn. destruct (decide (id = at_)) as [->|].
      * rewrite lookup_insert. by eexists.
      * by rewrite lookup_insert_ne.
    + by destruct (counters_increment _ _ _); injection Hs as <- <-.
Qed.

Lemma number_added_pos l i a : l !! i = Some a -> has_session a = true -> 0 < number_added l.
Proof.
  intros Hi Ha. unfold number_added.
  assert (Hin : a ∈ filter (fun x => has_session x = true) l).
  { apply elem_of_list_filter. split; [done|]. by eapply elem_of_list_lookup_2. }
  destruct (filter _ l); [by apply elem_of_nil in Hin|]. cbn. lia.
Qed.

Lemma omap_len_filter (l : list add_state) :
  length (omap owns l) = number_added l.
Proof.
  unfold number_added. induction l as [|a l IH]; [done|]. rewrite filter_len_cons, <-IH. by destruct a.
Qed.

Lemma omap_owns_NoDup (l : list add_state) :
  (forall i j a b id, l !! i = Some a -> l !! j = Some b -> owns a = Some id -> owns b = Some id -> i = j) ->
  NoDup (omap owns l).
Proof.
  induction l as [|a l IH]; intros H; [constructor|].
  assert (IH' : NoDup (omap owns l)).
  { apply IH. intros i j b c id Hi Hj Hb Hc. by injection (H (S i) (S j) b c id Hi Hj Hb Hc). }
  cbn. destruct (owns a) as [id|] eqn:E; [|done]. constructor; [|done].
  intros (b & Hb & Hid)%elem_of_list_omap. apply elem_of_list_lookup in Hb as [j Hj].
  by specialize (H 0 (S j) a b id eq_refl Hj E Hid).
Qed.

(** When all have ended: the ids returned are those below their number, and one at least is. *)
Lemma c48_exactly dbg (tokens : list bytes) (sched : list nat) l g :
  (lenN tokens < 2 ^ 32)%N -> adds_run dbg sched (adds_start tokens) = Some (l, g) ->
  Forall (fun a => add_ended a = true) l ->
  exists n, ids_returned l ≡ₚ below n /\ sm_next (as_sessions g) = N.of_nat n /\
    default 0%N (as_counters g !! MSessionsStarted) = N.of_nat n /\ as_locked g = ∅ /\
    (tokens <> [] -> 0 < n).
Proof.
  intros Hlen Hr He. destruct (c48_consecutive _ _ _ _ _ Hlen Hr) as [Hlive Hend].
  destruct (Hend He) as (Hn & Hc & Hk). exists (number_added l). split_and!; [|done|done|done|].
  - assert (Ho : ids_returned l = omap owns l).
    { unfold ids_returned. clear -He. induction He as [|a l Ha _ IH]; [done|]. cbn. rewrite IH. by destruct a. }
    rewrite Ho.
    apply (adds_inv_run dbg tokens) in Hr; [|apply adds_inv_start].
    destruct Hr as (_ & _ & H2 & H3). cbn in H2, H3.
    apply submseteq_Permutation_length_eq.
    + unfold below. rewrite map_length, seq_length, omap_len_filter. done.
    + apply NoDup_submseteq; [by apply omap_owns_NoDup|].
      intros id (a & Ha & Hid)%elem_of_list_omap. apply elem_of_list_lookup in Ha as [i Hi].
      destruct (H2 i a id Hi Hid) as (t & id' & _ & Hl).
      assert (Hlt : (id < N.of_nat (number_added l))%N) by (apply Hlive; by rewrite Hl).
      unfold below. change (map ?f ?l) with (f <$> l). apply elem_of_list_fmap. exists (N.to_nat id).
      split; [by rewrite N2Nat.id|]. apply elem_of_seq. lia.
  - intros Ht. pose proof (adds_run_length _ _ _ _ Hr) as Hl. rewrite start_length in Hl.
    change (length l = length tokens) in Hl.
    destruct l as [|a l]; [by destruct tokens|]. apply Forall_cons in He as [Ha He].
    destruct a; try done.
    + by eapply (number_added_pos _ 0).
    + destruct (c48_overlap _ _ _ _ _ 0 Hlen Hr eq_refl) as (s & l1 & g1 & b & j & c & [r ->] & H1 & _ & _ & _ & _ & Hj & Hc').
      destruct (c48_consecutive _ _ _ _ _ Hlen H1) as [Hlive1 _].
      assert (Hp : 0 < number_added l1) by (eapply number_added_pos; [done|by destruct c]).
      assert (H0 : is_Some (sm_live (as_sessions g1) !! 0%N)) by (apply Hlive1; lia).
      rewrite adds_run_app, H1 in Hr. apply (live_kept _ _ _ _ 0%N Hr) in H0. apply Hlive in H0. lia.
Qed.
