(** Calls about one key take effect one after the other, whatever else runs (C85). *)
From Verif Require Import Bytes BytesFacts Utf8 Float64 Value CommandId Request Response
  Metrics Prog Commands EngineSpec WireSpec RequestSpec RequestFacts HistorySpec ProgFacts
  CommandFacts SafeFacts EngineFacts EngineProps HistoryFacts Concurrent ConcSpec ConcFacts ConcProps
  Scripts LinSpec LinFacts KeyLinSpec.
From stdpp Require Import gmap list.
From Coq Require Import NArith ZArith Lia.
From Coq Require Import ZifyBool ZifyNat ZifyN.

Lemma within_weaken_all (R W R' W' : bytes -> Prop) (C C' : Prop) p :
  (forall k, R k -> R' k) -> (forall k, W k -> W' k) -> (C -> C') ->
  within R W C p -> within R' W' C' p.
Proof. intros HR HW HC. induction p; cbn; naive_solver. Qed.

Lemma arg_single req i x : arg req i = Some x -> (arg_count req <= 1)%N -> i = 0%N.
Proof.
  unfold arg, arg_count. destruct (get_at (r_positions req) i) as [p|] eqn:E; [|done]. intros _ H.
  unfold get_at in E. destruct (N.ltb_spec i (lenN (r_positions req))); [lia|done].
Qed.

Global Instance about_dec k c : Decision (about k c).
Proof.
  unfold about. apply and_dec; [apply _|]. apply and_dec; [apply _|].
  apply or_dec; unfold one_access, one_update; destruct (r_command (c_req c)); apply _.
Defined.

Lemma about_uses k c k' : about k c -> uses (c_req c) k' -> k' = k.
Proof.
  intros (Hk & He & Ho). unfold uses, one_access, one_update in *.
  destruct (r_command (c_req c)) eqn:Hc; try done; try congruence; try (by destruct Ho).
  all: intros [i Hi]; destruct Ho as [Ho|[]].
  all: assert (i = 0%N) as -> by (eapply arg_single; eauto); congruence.
Qed.

Lemma about_no_stats k c : about k c -> r_command (c_req c) <> CStats.
Proof.
  intros (Hk & He & Ho) Hc. unfold one_access, one_update in Ho. rewrite Hc in Ho. by destruct Ho.
Qed.

(** The step of a call about [k] depends on [k] alone. *)
Lemma about_pstep k c s t r s' : about k c ->
  st_keys s !! k = st_keys t !! k ->
  pstep (command_prog (c_env c) (c_req c) (c_res c)) s = Some (PRet r, s') ->
  let u := run (command_prog (c_env c) (c_req c) (c_res c)) t in
  u.2 = r /\ st_keys u.1 !! k = st_keys s' !! k.
Proof.
  intros Ha E Hs u.
  pose proof (command_within (c_env c) (c_req c) (c_res c)) as Hw.
  assert (Hw' : within (fun k' => k' = k) (fun k' => k' = k) False
    (command_prog (c_env c) (c_req c) (c_res c))).
  { eapply within_weaken_all; [| | |exact Hw].
    - intros k' Hk'. by eapply about_uses.
    - intros k' Hk'. eapply about_uses; [done|]. by apply may_write_uses.
    - by apply about_no_stats with (k := k). }
  destruct (within_agree _ _ _ s t (PRet r) s' (fun _ H => H) Hw' (command_quiet _ _ _))
    as (t' & Ht & Et); [by intros k' ->|done|].
  apply run_pstep in Ht. subst u. rewrite <-Ht. cbn. split; [done|]. symmetry. by apply Et.
Qed.

(** ** The invariant *)

Section inv.
  Context (k : bytes) (scripts : list (list call)) (s0 : store).
  Hypothesis Hroom : room_for_all scripts s0.
  Hypothesis Hsimple : simple_at k scripts s0.

  Local Notation placed := (placed s0).
  Local Notation placed_more := (placed_more s0).
  Local Notation placed_last := (placed_last s0).

  Definition ordered (l : list (nat * nat)) (h : list call) : Prop :=
    Forall2 (fun ij c => call_at scripts ij = Some c /\ about k c) l h.

  Definition client_inv (l : list (nat * nat)) (h : list call) (i : nat) (sc : list call)
    (cl : client) : Prop :=
    cl_todo cl = drop (begun cl) sc /\ begun cl <= length sc /\
    (forall j, (i, j) ∈ l -> j < begun cl) /\
    (forall j r c, cl_done cl !! j = Some r -> sc !! j = Some c -> about k c -> placed l h i j r) /\
    match cl_now cl with
    | None => True
    | Some p => exists c x, sc !! length (cl_done cl) = Some c /\ p = tprog c x /\ tquiet x /\
        (forall q, x = TRun q -> within (uses (c_req c)) (may_write (c_req c)) True q) /\
        (about k c ->
        match x with
        | TRun q => (q = command_prog (c_env c) (c_req c) (c_res c) /\ (forall r, q <> PRet r) /\
                     (i, length (cl_done cl)) ∉ l) \/
                    (exists r, q = PRet r /\ placed l h i (length (cl_done cl)) r)
        | TDone r => placed l h i (length (cl_done cl)) r
        end)
    end.

  Definition kept : Prop :=
    exists c, issued scripts c /\ one_update (c_req c) /\ arg (c_req c) 0 = Some k.

  Definition inv (l : list (nat * nat)) (x : system) : Prop :=
    exists h, ordered l h /\ NoDup l /\
    length x.1 = length scripts /\
    st_keys x.2 !! k = st_keys (run_calls h s0).1 !! k /\
    (forall i cl sc, x.1 !! i = Some cl -> scripts !! i = Some sc -> client_inv l h i sc cl) /\
    (forall m, (count x.2 m <= count s0 m + nsum (map bumped x.1))%N) /\
    (kept -> is_Some (st_keys x.2 !! k)).

  Lemma order_length l h : ordered l h -> NoDup l ->
    length l <= length (concat scripts).
  Proof.
    intros Hf Hn. rewrite <-all_calls_length. apply submseteq_length, NoDup_submseteq; [done|].
    intros ij Hij. apply elem_of_list_lookup in Hij as [p Hp].
    destruct (Forall2_lookup_l _ _ _ _ _ Hf Hp) as (c & _ & Hc & _). by eapply all_calls_in.
  Qed.

  (** Appending a call that has just begun or stepped. *)
  Lemma order_more l h i j c :
    ordered l h -> NoDup l -> (i, j) ∉ l ->
    call_at scripts (i, j) = Some c -> about k c ->
    ordered (l ++ [(i, j)]) (h ++ [c]) /\
    NoDup (l ++ [(i, j)]) /\ room (run_calls h s0).1.
  Proof.
    intros Hf Hn Hni Hc Hab.
    assert (Hf' : ordered (l ++ [(i, j)]) (h ++ [c])).
    { apply Forall2_app; [done|]. by constructor. }
    assert (Hn' : NoDup (l ++ [(i, j)])).
    { apply NoDup_app. split; [done|]. split; [|apply NoDup_singleton].
      intros y Hy Hy'%elem_of_list_singleton. by subst. }
    split; [done|]. split; [done|]. intros m.
    pose proof (run_calls_count h s0 m) as H1. pose proof (order_length _ _ Hf' Hn') as H2.
    apply Forall2_length in Hf. rewrite app_length in H2. cbn in H2.
    specialize (Hroom m). unfold lenN in *. lia.
  Qed.

  Lemma client_inv_more l h i sc cl ij c : length l = length h -> ij.1 <> i ->
    client_inv l h i sc cl -> client_inv (l ++ [ij]) (h ++ [c]) i sc cl.
  Proof.
    intros Hl Hne (H1 & H2 & H3 & H4 & H5). split; [done|]. split; [done|].
    assert (Hin : forall j, (i, j) ∈ l ++ [ij] -> (i, j) ∈ l).
    { intros j [?|Hj%elem_of_list_singleton]%elem_of_app; [done|]. by subst ij. }
    split; [|split].
    - intros j Hj. by apply H3, Hin.
    - intros j r d Hj Hd Ha. by eapply placed_more, H4.
    - destruct (cl_now cl) as [p|]; [|done]. destruct H5 as (d & x & E1 & E2 & E6 & E7 & E3).
      exists d, x. split; [done|]. split; [done|]. split; [done|]. split; [done|]. intros Ha. specialize (E3 Ha).
      destruct x as [q|r].
      + destruct E3 as [(E3 & E4 & E5)|(r & E3 & E4)]; [left|right].
        * split; [done|]. split; [done|]. intros H. apply E5, Hin, H.
        * exists r. split; [done|]. by apply placed_more.
      + by apply placed_more.
  Qed.

  Lemma bumped_le l h i sc cl : client_inv l h i sc cl -> (bumped cl <= N.of_nat (length sc))%N.
  Proof.
    intros (_ & H & _). unfold bumped, begun in *. destruct (cl_now cl) as [[]|]; lia.
  Qed.

  (** One client moved, and nothing else changed. *)
  Lemma inv_same l h cls (s : store) i cl sc cl' (s' : store) :
    ordered l h -> NoDup l ->
    length cls = length scripts -> st_keys s !! k = st_keys (run_calls h s0).1 !! k ->
    (forall i cl sc, cls !! i = Some cl -> scripts !! i = Some sc -> client_inv l h i sc cl) ->
    (kept -> is_Some (st_keys s !! k)) ->
    cls !! i = Some cl -> scripts !! i = Some sc ->
    client_inv l h i sc cl' -> st_keys s' !! k = st_keys s !! k ->
    (forall m, (count s' m <= count s0 m + nsum (map bumped (<[i := cl']> cls)))%N) ->
    inv l (<[i := cl']> cls, s').
  Proof.
    intros Hf Hn Hl Hk Hcl Hkept Hi Hsc Hci Hks Hcnt. exists h. cbn [fst snd].
    split; [done|]. split; [done|]. split; [by rewrite insert_length|].
    split; [by rewrite Hks|]. split; [|split; [done|by rewrite Hks]].
    intros j cj scj Hj Hscj. destruct (decide (i = j)) as [<-|Hne].
    - rewrite list_lookup_insert in Hj by (by eapply lookup_lt_Some). injection Hj as <-.
      by assert (scj = sc) as -> by congruence.
    - rewrite list_lookup_insert_ne in Hj by done. by eapply Hcl.
  Qed.

  (** One client moved and its call took effect. *)
  Lemma inv_effect l h cls i cl sc c cl' (s' : store) :
    ordered l h -> NoDup l ->
    length cls = length scripts ->
    (forall i cl sc, cls !! i = Some cl -> scripts !! i = Some sc -> client_inv l h i sc cl) ->
    cls !! i = Some cl -> scripts !! i = Some sc ->
    sc !! length (cl_done cl) = Some c -> about k c -> (i, length (cl_done cl)) ∉ l ->
    st_keys s' !! k = st_keys (dispatch (c_env c) (run_calls h s0).1 (c_req c) (c_res c)).1 !! k ->
    client_inv (l ++ [(i, length (cl_done cl))]) (h ++ [c]) i sc cl' ->
    (forall m, (count s' m <= count s0 m + nsum (map bumped (<[i := cl']> cls)))%N) ->
    (kept -> is_Some (st_keys s' !! k)) ->
    inv (l ++ [(i, length (cl_done cl))]) (<[i := cl']> cls, s').
  Proof.
    intros Hf Hn Hl Hcl Hi Hsc Hc Hab Hni Hks Hci Hcnt Hkept.
    destruct (order_more l h i (length (cl_done cl)) c) as (Hf' & Hn' & _); [done..| |done|].
    { unfold call_at. cbn. by rewrite Hsc. }
    exists (h ++ [c]). cbn [fst snd]. split; [done|]. split; [done|].
    split; [by rewrite insert_length|]. split; [by rewrite run_calls_snoc|].
    split; [|split; [done|done]].
    intros j cj scj Hj Hscj. destruct (decide (i = j)) as [<-|Hne].
    - rewrite list_lookup_insert in Hj by (by eapply lookup_lt_Some). injection Hj as <-.
      by assert (scj = sc) as -> by congruence.
    - rewrite list_lookup_insert_ne in Hj by done.
      apply client_inv_more; [by eapply Forall2_length|done|]. by eapply Hcl.
  Qed.

  Lemma inv_step l x i y : inv l x -> sys_step i x = Some y ->
    exists l', l `prefix_of` l' /\ inv l' y.
  Proof.
    intros (h & Hf & Hn & Hl & Hk & Hcl & Hcnt & Hkept) Hs. destruct x as [cls s].
    cbn [fst snd] in *. unfold sys_step in Hs. cbn [fst snd] in Hs.
    destruct (cls !! i) as [cl|] eqn:Hi; [|done].
    destruct (client_step cl s) as [[cl' s']|] eqn:Hst; [|done]. injection Hs as <-.
    assert (exists sc, scripts !! i = Some sc) as [sc Hsc].
    { apply lookup_lt_is_Some. rewrite <-Hl. by eapply lookup_lt_Some. }
    pose proof (Hcl i cl sc Hi Hsc) as Hci. pose proof Hci as (H1 & H2 & H3 & H4 & H5).
    pose proof (Forall2_length _ _ _ Hf) as Hlen.
    unfold client_step in Hst. destruct (cl_now cl) as [p|] eqn:Hnow.
    2: { (* begins a call *)
      assert (Hb : begun cl = length (cl_done cl)) by (unfold begun; rewrite Hnow; lia).
      destruct (cl_todo cl) as [|c rest] eqn:Htodo; [done|]. injection Hst as <- <-.
      rewrite Hb in H1. symmetry in H1.
      assert (Hc : sc !! length (cl_done cl) = Some c).
      { pose proof (lookup_drop sc (length (cl_done cl)) 0) as E. rewrite H1 in E. cbn in E.
        by rewrite Nat.add_0_r in E. }
      assert (Hrest : rest = drop (S (length (cl_done cl))) sc).
      { rewrite (drop_S _ c) in H1 by done. by injection H1. }
      assert (Hlt : length (cl_done cl) < length sc) by (by eapply lookup_lt_Some).
      assert (Hni : (i, length (cl_done cl)) ∉ l) by (intros Hin; apply H3 in Hin; lia).
      set (p := dispatch_prog _ _ _).
      assert (Hbu : forall q, bumped (Client (cl_done cl) (Some q) rest) = bumped cl \/
        (bumped cl <= bumped (Client (cl_done cl) (Some q) rest))%N).
      { intros q. right. unfold bumped. cbn [cl_done cl_now]. rewrite Hnow. destruct q; lia. }
      assert (Hcnt' : forall m, (count s m <= count s0 m +
        nsum (map bumped (<[i := Client (cl_done cl) (Some p) rest]> cls)))%N).
      { intros m. specialize (Hcnt m). pose proof (bumped_insert cls i cl (Client (cl_done cl) (Some p) rest) Hi).
        destruct (Hbu p); lia. }
      pose proof (within_weaken _ _ _ True _ (fun _ => I) (command_within (c_env c) (c_req c) (c_res c))) as Hwi.
      assert (Himm : (about k c /\ exists r, command_prog (c_env c) (c_req c) (c_res c) = PRet r) \/
        (about k c -> forall r, command_prog (c_env c) (c_req c) (c_res c) <> PRet r)).
      { destruct (decide (about k c)) as [Ha|Ha]; [|by right].
        destruct (command_prog (c_env c) (c_req c) (c_res c)); [left; eauto|right; done..]. }
      destruct Himm as [[Hab [r Hp]]|Himm].
      { (* and takes effect at once *)
        exists (l ++ [(i, length (cl_done cl))]). split; [by apply prefix_app_r|].
        destruct (order_more l h i (length (cl_done cl)) c) as (_ & _ & Hrm); [done..| |done|].
        { unfold call_at. cbn. by rewrite Hsc. }
        destruct (dispatch_cmd (c_env c) (run_calls h s0).1 (c_req c) (c_res c) Hrm) as [D1 D2].
        rewrite Hp in D1, D2. cbn [run fst snd] in D1, D2.
        eapply inv_effect; try done.
        - by rewrite D2.
        - unfold client_inv, begun. cbn [cl_done cl_now cl_todo].
          replace (length (cl_done cl) + 1) with (S (length (cl_done cl))) by lia.
          split; [done|]. split; [lia|]. split; [|split].
          + intros j [Hj|Hj%elem_of_list_singleton]%elem_of_app; [apply H3 in Hj; lia|].
            injection Hj as ->. lia.
          + intros j r' d Hj Hd Hda. by eapply placed_more, H4.
          + exists c, (TRun (PRet r)). split; [done|]. split; [by rewrite <-Hp|].
            split; [done|]. split; [by intros q [= <-]|]. intros _.
            right. exists r. split; [done|]. rewrite <-D1. by apply placed_last. }
      exists l. split; [done|]. eapply inv_same; try done. unfold client_inv, begun.
      cbn [cl_done cl_now cl_todo].
      replace (length (cl_done cl) + 1) with (S (length (cl_done cl))) by lia.
      split; [done|]. split; [lia|].
      split; [by intros j Hj; apply H3 in Hj; lia|]. split; [done|].
      exists c, (tstart c). split; [done|]. split; [done|]. split; [apply tstart_quiet|].
      split; [by intros q [= <-]|]. intros Ha. left. split; [done|]. split; [|done]. by apply Himm. }
    destruct H5 as (c & x & Hc & -> & Hq & Hwi & Hx).
    assert (Hb : begun cl = S (length (cl_done cl))) by (unfold begun; rewrite Hnow; lia).
    assert (Hlt : length (cl_done cl) < length sc) by (by eapply lookup_lt_Some).
    assert (Hissued : issued scripts c).
    { exists (i, length (cl_done cl)). unfold call_at. cbn. by rewrite Hsc. }
    assert (Hret : (exists r, tprog c x = PRet r) \/ (forall r, tprog c x <> PRet r)).
    { destruct (tprog c x) as [r| | | | | | | |]; [left; by exists r|right; done..]. }
    destruct Hret as [[r Hr]|Hnr].
    - (* returns *)
      rewrite Hr in Hst. injection Hst as <- <-. exists l. split; [done|].
      assert (Hpl : about k c -> placed l h i (length (cl_done cl)) r).
      { intros Ha. specialize (Hx Ha). destruct (tprog_ret _ _ _ Hr Hq) as [->|[-> ->]]; [done|].
        destruct Hx as [(_ & Hx & _)|(r & [= <-] & Hx)]; [by destruct (Hx CPanic)|done]. }
      eapply inv_same; try done.
      + unfold client_inv, begun. cbn [cl_done cl_now cl_todo]. rewrite app_length. cbn [length].
        rewrite H1, Hb. replace (length (cl_done cl) + 1 + 0) with (S (length (cl_done cl))) by lia.
        split; [done|]. split; [lia|]. split; [by rewrite <-Hb|]. split; [|done].
        intros j r' d Hj Hd Hda. apply lookup_app_Some in Hj as [Hj|[Hge Hj]]; [by eapply H4|].
        apply list_lookup_singleton_Some in Hj as [Hj <-].
        assert (j = length (cl_done cl)) as -> by lia. apply Hpl.
        by assert (d = c) as -> by congruence.
      + intros m. specialize (Hcnt m).
        pose proof (bumped_insert cls i cl (Client (cl_done cl ++ [r]) None (cl_todo cl)) Hi) as E.
        assert (bumped (Client (cl_done cl ++ [r]) None (cl_todo cl)) = bumped cl) as E'.
        { unfold bumped. cbn [cl_done cl_now]. rewrite Hnow, Hr, app_length. cbn. lia. }
        lia.
    - assert (Hst' : match pstep (tprog c x) s with
        | Some (p', s') => Some (Client (cl_done cl) (Some p') (cl_todo cl), s') | None => None end
        = Some (cl', s')).
      { destruct (tprog c x) as [r| | | | | | | |]; [by destruct (Hnr r)|done..]. }
      clear Hst. rewrite tstep_prog in Hst' by done.
      destruct (tstep c x s) as [[x' s1]|] eqn:Ht; [|done]. injection Hst' as <- <-.
      assert (Hb0 : bumped cl = N.of_nat (length (cl_done cl))).
      { unfold bumped. rewrite Hnow. destruct (tprog c x) as [r| | | | | | | |]; [by destruct (Hnr r)|..]; lia. }
      assert (Hcnt' : forall p s2, (forall m, (count s2 m <= count s m)%N) ->
        forall m, (count s2 m <= count s0 m +
          nsum (map bumped (<[i := Client (cl_done cl) (Some p) (cl_todo cl)]> cls)))%N).
      { intros p s2 Hs2 m. specialize (Hcnt m). specialize (Hs2 m).
        pose proof (bumped_insert cls i cl (Client (cl_done cl) (Some p) (cl_todo cl)) Hi) as E.
        assert (bumped cl <= bumped (Client (cl_done cl) (Some p) (cl_todo cl)))%N.
        { rewrite Hb0. unfold bumped. cbn [cl_done cl_now]. destruct p; lia. }
        lia. }
      destruct (tstep_run_cases _ _ _ _ _ Ht) as [(q & q' & -> & -> & Hp)|(r & -> & Hbump)].
      + (* the step of the command *)
        destruct (Hsimple c Hissued) as [Hwr Hup].
        destruct (within_pstep _ _ _ _ _ _ _ (Hwi q eq_refl) Hp) as [Hwi' Hsame].
        assert (Hcount : forall m, (count s1 m <= count s m)%N).
        { intros m. rewrite (count_counters s1 s); [lia|]. by eapply quiet_keeps. }
        destruct (decide (about k c)) as [Hab|Hab].
        2: { exists l. split; [done|]. eapply inv_same; try done.
          - unfold client_inv, begun. cbn [cl_done cl_now cl_todo].
            replace (length (cl_done cl) + 1) with (S (length (cl_done cl))) by lia. rewrite H1, Hb.
            split; [done|]. split; [lia|]. split; [by rewrite <-Hb|]. split; [done|].
            exists c, (TRun q'). split; [done|]. split; [done|]. split; [by eapply quiet_pstep|].
            split; [by intros ? [= <-]|]. done.
          - apply Hsame. by destruct Hwr.
          - by apply Hcnt'. }
        destruct (Hx Hab) as [(-> & Hx' & Hni)|(r & -> & _)]; [|done]. clear Hx. rename Hx' into Hx.
        destruct Hab as (Hak & Hae & Hone). pose proof (conj Hak (conj Hae Hone)) as Hab.
        pose proof Hone as Hone'.
        assert (exists r, q' = PRet r) as [r ->].
        { destruct Hone as [Hone|Hone].
          - destruct (one_access_single (c_env c) (c_req c) (c_res c) Hone s) as [[r Hr]|(r & s2 & Hr)];
              [done|by destruct (Hx r)|]. rewrite Hp in Hr. injection Hr as -> _. by exists r.
          - destruct (one_update_single (c_env c) (c_req c) (c_res c) Hone s) as [[r Hr]|(r & s2 & Hr)];
              [|by destruct (Hx r)|rewrite Hp in Hr; injection Hr as -> _; by exists r].
            intros k' Hk'. assert (k' = k) as -> by congruence. apply Hkept. by exists c. }
        exists (l ++ [(i, length (cl_done cl))]). split; [by apply prefix_app_r|].
        destruct (order_more l h i (length (cl_done cl)) c) as (_ & _ & Hrm); [done..| |done|].
        { unfold call_at. cbn. by rewrite Hsc. }
        destruct (dispatch_cmd (c_env c) (run_calls h s0).1 (c_req c) (c_res c) Hrm) as [D1 D2].
        destruct (about_pstep k c s (run_calls h s0).1 r s1 Hab Hk Hp) as [E1 E2].
        eapply inv_effect; try done.
        * by rewrite D2, E2.
        * unfold client_inv, begun. cbn [cl_done cl_now cl_todo].
          replace (length (cl_done cl) + 1) with (S (length (cl_done cl))) by lia. rewrite H1, Hb.
          split; [done|]. split; [lia|]. split; [|split].
          -- intros j [Hj|Hj%elem_of_list_singleton]%elem_of_app; [apply H3 in Hj; lia|].
             injection Hj as ->. lia.
          -- intros j r' d Hj Hd Hda. by eapply placed_more, H4.
          -- exists c, (TRun (PRet r)). split; [done|]. split; [done|].
             split; [done|]. split; [by intros ? [= <-]|]. intros _.
             right. exists r. split; [done|]. rewrite <-E1, <-D1. by apply placed_last.
        * by apply Hcnt'.
        * intros Hkk. eapply first_step_keeps; [exact Hone'| |exact Hp|by apply Hkept].
          destruct Hkk as (d & Hd & Hdu & Hdk). destruct (Hsimple d Hd) as [_ Ha].
          intros Hdel. by apply (Ha Hdu Hdk).
      + (* the counter *)
        assert (Hpl : about k c -> placed l h i (length (cl_done cl)) r).
        { intros Ha. destruct (Hx Ha) as [(_ & Hx' & _)|(r' & [= <-] & Hpl)]; [by destruct (Hx' r)|done]. }
        assert (Hle : forall m, (count s m + 1 < u64_mod)%N).
        { intros m. specialize (Hcnt m). specialize (Hroom m).
          assert (nsum (map bumped (<[i := Client (cl_done cl ++ [r]) None (cl_todo cl)]> cls)) <=
            lenN (concat scripts))%N as Htot.
          { apply bumped_total; [by rewrite insert_length|]. intros j cj scj Hj Hscj.
            destruct (decide (i = j)) as [<-|Hne].
            - rewrite list_lookup_insert in Hj by (by eapply lookup_lt_Some). injection Hj as <-.
              assert (scj = sc) as -> by congruence. unfold bumped. cbn [cl_done cl_now].
              rewrite app_length. cbn. lia.
            - rewrite list_lookup_insert_ne in Hj by done. by eapply bumped_le, Hcl. }
          pose proof (bumped_insert cls i cl (Client (cl_done cl ++ [r]) None (cl_todo cl)) Hi) as E.
          rewrite Hb0 in E. unfold bumped at 3 in E. cbn [cl_done cl_now] in E.
          rewrite app_length in E. cbn [length] in E. change u64_mod with (2 ^ 64)%N. lia. }
        assert (Hout : x' = TDone r /\ st_keys s1 = st_keys s /\ forall m, (count s1 m <= count s m + 1)%N).
        { unfold bump in Hbump. destruct r as [b|err b|]; [| |done].
          all: rewrite counters_inc_at in Hbump by done; injection Hbump as <- <-.
          all: split; [done|]; split; [done|]; intros m; unfold count; cbn [st_counters].
          all: match goal with |- context [<[?k := _]> _] => destruct (decide (k = m)) as [<-|] end.
          all: rewrite ?lookup_insert, ?lookup_insert_ne by done; cbn; lia. }
        destruct Hout as (-> & Hks & Hcs). exists l. split; [done|]. eapply inv_same; try done.
        * unfold client_inv, begun. cbn [cl_done cl_now cl_todo].
          replace (length (cl_done cl) + 1) with (S (length (cl_done cl))) by lia. rewrite H1, Hb.
          split; [done|]. split; [lia|]. split; [intros j Hj; apply H3 in Hj; lia|]. split; [done|].
          exists c, (TDone r). done.
        * by rewrite Hks.
        * intros m. specialize (Hcnt m). specialize (Hcs m).
          pose proof (bumped_insert cls i cl (Client (cl_done cl) (Some (tprog c (TDone r))) (cl_todo cl)) Hi) as E.
          rewrite Hb0 in E. unfold bumped at 3 in E. cbn [cl_done cl_now tprog] in E |- *. lia.
  Qed.

  Lemma inv_begin : inv [] (begin scripts s0).
  Proof.
    exists []. cbn [fst snd begin]. split; [constructor|]. split; [constructor|].
    split; [by rewrite map_length|]. split; [done|]. split; [|split].
    - intros i cl sc Hi Hsc. rewrite list_lookup_fmap, Hsc in Hi. injection Hi as <-.
      unfold client_inv, begun. cbn. split; [done|]. split; [lia|].
      split; [by intros j Hj%elem_of_nil|]. done.
    - intros m. lia.
    - intros (c & Hc & Hu & Hk). destruct (Hsimple c Hc) as [_ Ha]. by apply Ha.
  Qed.

  Lemma inv_explains l x : inv l x -> explains_at k scripts s0 l x.
  Proof.
    intros (h & Hf & Hn & Hl & Hk & Hcl & _). exists h. split; [done|]. split; [done|]. split; [done|].
    intros i cl Hi.
    assert (exists sc, scripts !! i = Some sc) as [sc Hsc].
    { apply lookup_lt_is_Some. rewrite <-Hl. by eapply lookup_lt_Some. }
    destruct (Hcl i cl sc Hi Hsc) as (_ & _ & H3 & H4 & _). split; [done|].
    intros j r c Hj Hc Ha. eapply H4; [done| |done]. unfold call_at in Hc. cbn in Hc. by rewrite Hsc in Hc.
  Qed.

  Lemma inv_run sched : forall x, sys_run sched (begin scripts s0) = Some x ->
    exists lin : nat -> list (nat * nat), forall n y, n <= length sched ->
      sys_run (take n sched) (begin scripts s0) = Some y ->
      inv (lin n) y /\ forall m, m <= n -> lin m `prefix_of` lin n.
  Proof.
    induction sched as [|i sched IH] using rev_ind; intros x Hx.
    - exists (fun _ => []). intros n y Hn Hy. cbn in Hn. assert (n = 0) as -> by lia.
      injection Hy as <-. split; [apply inv_begin|done].
    - rewrite sys_run_app in Hx. destruct (sys_run sched (begin scripts s0)) as [z|] eqn:Hz; [|done].
      cbn in Hx. destruct (sys_step i z) as [x'|] eqn:Hs; [|done]. injection Hx as ->.
      destruct (IH z eq_refl) as [lin Hlin].
      destruct (Hlin (length sched) z) as [Hi Hp]; [done|by rewrite firstn_all|].
      destruct (inv_step _ _ _ _ Hi Hs) as (l' & Hpre & Hi').
      exists (fun n => if decide (n <= length sched) then lin n else l').
      intros n y Hn Hy. rewrite app_length in Hn. cbn in Hn.
      destruct (decide (n <= length sched)) as [Hle|Hgt].
      + rewrite take_app_le in Hy by done. destruct (Hlin n y Hle Hy) as [Q1 Q2]. split; [done|].
        intros m Hm. rewrite decide_True by lia. by apply Q2.
      + assert (n = length (sched ++ [i])) as -> by (rewrite app_length; cbn; lia).
        rewrite firstn_all, sys_run_app, Hz in Hy. cbn in Hy. rewrite Hs in Hy. injection Hy as <-.
        split; [done|]. intros m Hm. destruct (decide (m <= length sched)); [|done].
        transitivity (lin (length sched)); [by apply Hp|done].
  Qed.
End inv.


Lemma c85 k scripts s0 sched x :
  room_for_all scripts s0 -> simple_at k scripts s0 -> sys_run sched (begin scripts s0) = Some x ->
  linearizable_at k scripts s0 sched.
Proof.
  intros Hr Hs Hx. destruct (inv_run k scripts s0 Hr Hs sched x Hx) as [lin Hlin].
  exists lin. intros n y Hn Hy. destruct (Hlin n y Hn Hy) as [H1 H2]. split; [|done].
  by apply inv_explains.
Qed.
