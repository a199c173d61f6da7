(** Clients with scripts of single-key commands are linearizable (C74). *)
From Verif Require Import Bytes BytesFacts Value CommandId Request Metrics Prog Commands HistorySpec
  ProgFacts EngineFacts HistoryFacts Concurrent ConcSpec ConcFacts ConcProps Scripts LinSpec.
From stdpp Require Import gmap list.
From Coq Require Import NArith ZArith Lia.
From Coq Require Import ZifyBool ZifyNat ZifyN.

Lemma sys_run_app a b x :
  sys_run (a ++ b) x = match sys_run a x with Some y => sys_run b y | None => None end.
Proof.
  revert x. induction a as [|i a IH]; intros x; cbn; [done|].
  destruct (sys_step i x); [apply IH|done].
Qed.

Lemma run_calls_snoc h c s :
  run_calls (h ++ [c]) s =
  ((dispatch (c_env c) (run_calls h s).1 (c_req c) (c_res c)).1,
   (run_calls h s).2 ++ [(dispatch (c_env c) (run_calls h s).1 (c_req c) (c_res c)).2]).
Proof.
  revert s. induction h as [|d h IH]; intros s; cbn.
  - by destruct (dispatch (c_env c) s (c_req c) (c_res c)).
  - destruct (dispatch (c_env d) s (c_req d) (c_res d)) as [s1 r]. rewrite IH.
    by destruct (run_calls h s1).
Qed.

Lemma run_calls_length h s : length (run_calls h s).2 = length h.
Proof.
  revert s. induction h as [|d h IH]; intros s; cbn; [done|].
  destruct (dispatch (c_env d) s (c_req d) (c_res d)) as [s1 r].
  specialize (IH s1). destruct (run_calls h s1). cbn in *. lia.
Qed.

Lemma counters_increment_le dbg (cs : gmap metric N) m (cs' : gmap metric N) m' : counters_increment dbg cs m = Ok cs' ->
  (default 0 (cs' !! m') <= default 0 (cs !! m') + (if decide (m = m') then 1 else 0))%N.
Proof.
  unfold counters_increment, uadd. cbn. intros H.
  destruct (decide (m = m')) as [<-|Hne].
  - destruct (_ <? _)%N eqn:E in H; cbn in H.
    + injection H as <-. rewrite lookup_insert. cbn. lia.
    + destruct dbg; cbn in H; [done|]. injection H as <-. rewrite lookup_insert. cbn.
      etransitivity; [apply N.mod_le; done|]. lia.
  - destruct (_ <? _)%N eqn:E in H; cbn in H; [|destruct dbg; cbn in H; [done|]];
      injection H as <-; rewrite lookup_insert_ne by done; lia.
Qed.

Lemma dispatch_count e s req res m : (count (dispatch e s req res).1 m <= count s m + 1)%N.
Proof.
  rewrite dispatch_run. set (x := run _ s).
  assert (E : st_counters x.1 = st_counters s) by (by apply quiet_run, command_quiet).
  rewrite <-(count_counters x.1 s) by done.
  unfold tally. destruct x as [s1 [b|err b|]]; cbn [fst snd]; [| |lia].
  all: destruct (counters_increment _ _ _) as [cs|] eqn:Hc; cbn [fst]; [|lia].
  all: pose proof (counters_increment_le _ _ _ _ m Hc) as H; unfold count; cbn [st_counters];
    destruct (decide _); lia.
Qed.

Lemma run_calls_count h s m : (count (run_calls h s).1 m <= count s m + lenN h)%N.
Proof.
  induction h as [|c h IH] using rev_ind; [unfold lenN; cbn; lia|].
  rewrite run_calls_snoc. cbn [fst].
  pose proof (dispatch_count (c_env c) (run_calls h s).1 (c_req c) (c_res c) m).
  unfold lenN in *. rewrite app_length. cbn. lia.
Qed.

(** ** The first step *)

(** It removes nothing. *)
Definition keeps (p : prog) : Prop := match p with PRemove _ _ => False | _ => True end.

Lemma keeps_guarded e k p : keeps p -> keeps (guarded e k p).
Proof. intros H. unfold guarded. destruct (starts_with _ _); [done|]. by destruct (debug e && _). Qed.

Lemma keeps_koi e k d u : keeps (key_or_insert_with e k d u).
Proof. by apply keeps_guarded. Qed.

Lemma keeps_pstep p s p' s' k : keeps p -> pstep p s = Some (p', s') ->
  is_Some (st_keys s !! k) -> is_Some (st_keys s' !! k).
Proof.
  assert (Hi : forall k' v (m : gmap bytes value), is_Some (m !! k) -> is_Some (<[k' := v]> m !! k)).
  { intros k' v m Hm. destruct (decide (k' = k)) as [->|Hne].
    - rewrite lookup_insert. by eexists.
    - by rewrite lookup_insert_ne. }
  destruct p as [r|k' c|k' c|k' v c|k' c|k' d u c|k' d u c|m c|dbg m c]; cbn; try done.
  - by intros _ [= <- <-].
  - by intros _ [= <- <-].
  - intros _ [= <- <-]. apply Hi.
  - intros _. destruct (st_keys s !! k') as [v|]; [destruct (u v)|]; intros [= <- <-]; [apply Hi|done].
  - intros _ [= <- <-]. apply Hi.
  - by intros _ [= <- <-].
  - intros _. destruct (counters_increment _ _ _); by intros [= <- <-].
Qed.

Lemma one_update_keeps e req res : one_update req -> keeps (command_prog e req res).
Proof.
  unfold one_update, command_prog. destruct (r_command req) eqn:Hc; try done; intros H.
  - unfold cmd_increment. destruct (key req) as [k|] eqn:Hk; [|done].
    destruct (wants_float req); apply keeps_koi.
  - unfold cmd_decrement. destruct (key req) as [k|] eqn:Hk; [|done].
    destruct (wants_float req); apply keeps_koi.
  - unfold cmd_increment_by. destruct (key req) as [k|] eqn:Hk; [|done].
    destruct (typed_arg convert_i64 req 1); [apply keeps_koi|].
    destruct (typed_arg convert_f64 req 1); [apply keeps_koi|done].
  - unfold cmd_decrement_by. destruct (key req) as [k|] eqn:Hk; [|done].
    destruct (typed_arg convert_i64 req 1).
    + destruct (i64_checked _ _); [apply keeps_koi|done].
    + destruct (typed_arg convert_f64 req 1); [apply keeps_koi|done].
  - unfold cmd_append, resolve_type. destruct (arg req 0) as [k|] eqn:Hk; [|done].
    destruct (args_from req 1); [|done].
    destruct (r_key_type req) as [[]|]; try done; apply keeps_koi.
Qed.

Lemma first_step_keeps e req res s p' s' k :
  one_access req \/ one_update req -> (r_command req = CDelete -> arg req 0 <> Some k) ->
  pstep (command_prog e req res) s = Some (p', s') ->
  is_Some (st_keys s !! k) -> is_Some (st_keys s' !! k).
Proof.
  intros Hone Hd Hs Hk. destruct Hone as [Hone|Hone].
  - destruct (within_pstep _ _ _ _ _ _ _ (command_within e req res) Hs) as [_ Hw].
    rewrite Hw; [done|]. intros [Hr Hn]. unfold one_access, names in *.
    destruct (r_command req) eqn:Hc; try done. by destruct Hn as [Hn|[? _]]; [apply (Hd eq_refl)|].
  - by eapply keeps_pstep; [apply one_update_keeps| |].
Qed.

(** A step that reads no counter depends on the keys alone. *)
Lemma pstep_keys p s t r s' :
  match p with PCounter _ _ | PIncr _ _ _ => False | _ => True end ->
  st_keys s = st_keys t -> pstep p s = Some (PRet r, s') ->
  (run p t).2 = r /\ st_keys (run p t).1 = st_keys s'.
Proof.
  intros Hp E Hs.
  assert (Ht : exists t', pstep p t = Some (PRet r, t') /\ st_keys t' = st_keys s').
  { destruct p as [r'|k' c|k' c|k' v c|k' c|k' d u c|k' d u c|m c|dbg m c]; cbn in *; try done;
      rewrite <-?E.
    1-4: injection Hs as Hc <-; rewrite Hc; eexists; (split; [done|]); cbn; by rewrite <-?E.
    - destruct (st_keys s !! k') as [v|]; [|done]. destruct (u v). injection Hs as Hc <-.
      rewrite Hc. eexists. split; [done|]. done. }
  destruct Ht as (t' & Ht & E'). apply run_pstep in Ht. rewrite <-Ht. done.
Qed.

Lemma one_no_counter e req res : one_access req \/ one_update req ->
  match command_prog e req res with PCounter _ _ | PIncr _ _ _ => False | _ => True end.
Proof.
  intros H. pose proof (command_within e req res) as Hw. pose proof (command_quiet e req res) as Hq.
  destruct (command_prog e req res); try done.
  destruct Hw as [Hc _]. unfold one_access, one_update in H. rewrite Hc in H. by destruct H.
Qed.

(** ** The invariant *)

Section inv.
  Context (scripts : list (list call)) (s0 : store).
  Hypothesis Hroom : room_for_all scripts s0.
  Hypothesis Hsimple : simple scripts s0.

  Definition all_calls : list (nat * nat) :=
    concat (imap (fun i (h : list call) => map (pair i) (seq 0 (length h))) scripts).

  Lemma all_calls_length : length all_calls = length (concat scripts).
  Proof.
    assert (H : forall f : nat -> nat,
      length (concat (imap (fun i (h : list call) => map (pair (f i)) (seq 0 (length h))) scripts)) =
      length (concat scripts)).
    { clear. induction scripts as [|h l IH]; intros f; cbn; [done|].
      rewrite !app_length, map_length, seq_length. f_equal. exact (IH (fun i => f (S i))). }
    exact (H (fun i => i)).
  Qed.

  Lemma all_calls_in ij c : call_at scripts ij = Some c -> ij ∈ all_calls.
  Proof.
    destruct ij as [i j]. unfold call_at. cbn. destruct (scripts !! i) as [h|] eqn:Hi; [|done].
    cbn. intros Hj. unfold all_calls. apply elem_of_list_In, in_concat.
    exists (map (pair i) (seq 0 (length h))). split; apply elem_of_list_In.
    - apply elem_of_lookup_imap. eauto.
    - apply elem_of_list_fmap. exists j. split; [done|]. apply elem_of_seq.
      apply lookup_lt_Some in Hj. lia.
  Qed.

  (** The position of a call in the order, with its outcome. *)
  Definition placed (l : list (nat * nat)) (h : list call) (i j : nat) (r : cres) : Prop :=
    exists p, l !! p = Some (i, j) /\ (run_calls h s0).2 !! p = Some r.

  Lemma placed_more l h ij c i j r : length l = length h ->
    placed l h i j r -> placed (l ++ [ij]) (h ++ [c]) i j r.
  Proof.
    intros Hl (p & H1 & H2). exists p. split; [by apply lookup_app_l_Some|].
    rewrite run_calls_snoc. cbn [snd]. by apply lookup_app_l_Some.
  Qed.

  Lemma placed_last l h i j c : length l = length h ->
    placed (l ++ [(i, j)]) (h ++ [c]) i j
      (dispatch (c_env c) (run_calls h s0).1 (c_req c) (c_res c)).2.
  Proof.
    intros Hl. exists (length l). split; [by rewrite lookup_app_r, Nat.sub_diag by lia|].
    rewrite run_calls_snoc. cbn [snd]. rewrite lookup_app_r by (rewrite run_calls_length; lia).
    by rewrite run_calls_length, Hl, Nat.sub_diag.
  Qed.

  Definition client_inv (l : list (nat * nat)) (h : list call) (i : nat) (sc : list call)
    (cl : client) : Prop :=
    cl_todo cl = drop (begun cl) sc /\ begun cl <= length sc /\
    (forall j, (i, j) ∈ l -> j < begun cl) /\
    (forall j r, cl_done cl !! j = Some r -> placed l h i j r) /\
    match cl_now cl with
    | None => True
    | Some p => exists c x, sc !! length (cl_done cl) = Some c /\ p = tprog c x /\
        match x with
        | TRun q => (q = command_prog (c_env c) (c_req c) (c_res c) /\ (forall r, q <> PRet r) /\
                     (i, length (cl_done cl)) ∉ l) \/
                    (exists r, q = PRet r /\ placed l h i (length (cl_done cl)) r)
        | TDone r => placed l h i (length (cl_done cl)) r
        end
    end.

  (** How many of its calls have been counted. *)
  Definition bumped (cl : client) : N :=
    N.of_nat (length (cl_done cl) + match cl_now cl with Some (PRet _) => 1 | _ => 0 end).

  Definition kept (k : bytes) : Prop :=
    exists c, issued scripts c /\ one_update (c_req c) /\ arg (c_req c) 0 = Some k.

  Definition inv (l : list (nat * nat)) (x : system) : Prop :=
    exists h, Forall2 (fun ij c => call_at scripts ij = Some c) l h /\ NoDup l /\
    length x.1 = length scripts /\
    st_keys x.2 = st_keys (run_calls h s0).1 /\
    (forall i cl sc, x.1 !! i = Some cl -> scripts !! i = Some sc -> client_inv l h i sc cl) /\
    (forall m, (count x.2 m <= count s0 m + nsum (map bumped x.1))%N) /\
    (forall k, kept k -> is_Some (st_keys x.2 !! k)).

  Lemma order_length l h : Forall2 (fun ij c => call_at scripts ij = Some c) l h -> NoDup l ->
    length l <= length (concat scripts).
  Proof.
    intros Hf Hn. rewrite <-all_calls_length. apply submseteq_length, NoDup_submseteq; [done|].
    intros ij Hij. apply elem_of_list_lookup in Hij as [p Hp].
    destruct (Forall2_lookup_l _ _ _ _ _ Hf Hp) as (c & _ & Hc). by eapply all_calls_in.
  Qed.

  (** Appending a call that has just begun or stepped. *)
  Lemma order_more l h i j c :
    Forall2 (fun ij c => call_at scripts ij = Some c) l h -> NoDup l -> (i, j) ∉ l ->
    call_at scripts (i, j) = Some c ->
    Forall2 (fun ij c => call_at scripts ij = Some c) (l ++ [(i, j)]) (h ++ [c]) /\
    NoDup (l ++ [(i, j)]) /\ room (run_calls h s0).1.
  Proof.
    intros Hf Hn Hni Hc.
    assert (Hf' : Forall2 (fun ij c => call_at scripts ij = Some c) (l ++ [(i, j)]) (h ++ [c])).
    { apply Forall2_app; [done|]. by constructor. }
    assert (Hn' : NoDup (l ++ [(i, j)])).
    { apply NoDup_app. split; [done|]. split; [|apply NoDup_singleton].
      intros y Hy Hy'%elem_of_list_singleton. by subst. }
    split; [done|]. split; [done|]. intros m.
    pose proof (run_calls_count h s0 m) as H1. pose proof (order_length _ _ Hf' Hn') as H2.
    apply Forall2_length in Hf. rewrite app_length in H2. cbn in H2.
    specialize (Hroom m). unfold lenN in *. lia.
  Qed.

  Lemma client_inv_more l h i sc cl ij c : length l = length h -> ij.1 <> i ->
    client_inv l h i sc cl -> client_inv (l ++ [ij]) (h ++ [c]) i sc cl.
  Proof.
    intros Hl Hne (H1 & H2 & H3 & H4 & H5). split; [done|]. split; [done|].
    assert (Hin : forall j, (i, j) ∈ l ++ [ij] -> (i, j) ∈ l).
    { intros j [?|Hj%elem_of_list_singleton]%elem_of_app; [done|]. by subst ij. }
    split; [|split].
    - intros j Hj. by apply H3, Hin.
    - intros j r Hj. by apply placed_more, H4.
    - destruct (cl_now cl) as [p|]; [|done]. destruct H5 as (d & x & E1 & E2 & E3).
      exists d, x. split; [done|]. split; [done|]. destruct x as [q|r].
      + destruct E3 as [(E3 & E4 & E5)|(r & E3 & E4)]; [left|right].
        * split; [done|]. split; [done|]. intros H. apply E5, Hin, H.
        * exists r. split; [done|]. by apply placed_more.
      + by apply placed_more.
  Qed.

  Lemma bumped_insert cls i cl cl' : cls !! i = Some cl ->
    (nsum (map bumped (<[i := cl']> cls)) + bumped cl = nsum (map bumped cls) + bumped cl')%N.
  Proof.
    intros H. assert (E : map bumped (<[i := cl']> cls) = <[i := bumped cl']> (map bumped cls))
      by apply list_fmap_insert.
    rewrite E. apply nsum_insert.
    transitivity (bumped <$> cls !! i); [apply list_lookup_fmap|]. by rewrite H.
  Qed.

  Lemma bumped_total cls : length cls = length scripts ->
    (forall i cl sc, cls !! i = Some cl -> scripts !! i = Some sc ->
       (bumped cl <= N.of_nat (length sc))%N) ->
    (nsum (map bumped cls) <= lenN (concat scripts))%N.
  Proof.
    clear Hroom Hsimple. revert scripts. induction cls as [|cl cls IH]; intros [|sc l] Hl H; cbn; try done.
    assert (bumped cl <= N.of_nat (length sc))%N by (by apply (H 0)).
    assert (nsum (map bumped cls) <= lenN (concat l))%N.
    { apply IH; [by injection Hl|]. intros i. by apply (H (S i)). }
    unfold lenN in *. rewrite app_length. lia.
  Qed.

  Lemma bumped_le l h i sc cl : client_inv l h i sc cl -> (bumped cl <= N.of_nat (length sc))%N.
  Proof.
    intros (_ & H & _). unfold bumped, begun in *. destruct (cl_now cl) as [[]|]; lia.
  Qed.

  (** One client moved, and nothing else changed. *)
  Lemma inv_same l h cls (s : store) i cl sc cl' (s' : store) :
    Forall2 (fun ij c => call_at scripts ij = Some c) l h -> NoDup l ->
    length cls = length scripts -> st_keys s = st_keys (run_calls h s0).1 ->
    (forall i cl sc, cls !! i = Some cl -> scripts !! i = Some sc -> client_inv l h i sc cl) ->
    (forall k, kept k -> is_Some (st_keys s !! k)) ->
    cls !! i = Some cl -> scripts !! i = Some sc ->
    client_inv l h i sc cl' -> st_keys s' = st_keys s ->
    (forall m, (count s' m <= count s0 m + nsum (map bumped (<[i := cl']> cls)))%N) ->
    inv l (<[i := cl']> cls, s').
  Proof.
    intros Hf Hn Hl Hk Hcl Hkept Hi Hsc Hci Hks Hcnt. exists h. cbn [fst snd].
    split; [done|]. split; [done|]. split; [by rewrite insert_length|].
    split; [by rewrite Hks|]. split; [|split; [done|by rewrite Hks]].
    intros j cj scj Hj Hscj. destruct (decide (i = j)) as [<-|Hne].
    - rewrite list_lookup_insert in Hj by (by eapply lookup_lt_Some). injection Hj as <-.
      by assert (scj = sc) as -> by congruence.
    - rewrite list_lookup_insert_ne in Hj by done. by eapply Hcl.
  Qed.

  (** One client moved and its call took effect. *)
  Lemma inv_effect l h cls i cl sc c cl' (s' : store) :
    Forall2 (fun ij c => call_at scripts ij = Some c) l h -> NoDup l ->
    length cls = length scripts ->
    (forall i cl sc, cls !! i = Some cl -> scripts !! i = Some sc -> client_inv l h i sc cl) ->
    cls !! i = Some cl -> scripts !! i = Some sc ->
    sc !! length (cl_done cl) = Some c -> (i, length (cl_done cl)) ∉ l ->
    st_keys s' = st_keys (dispatch (c_env c) (run_calls h s0).1 (c_req c) (c_res c)).1 ->
    client_inv (l ++ [(i, length (cl_done cl))]) (h ++ [c]) i sc cl' ->
    (forall m, (count s' m <= count s0 m + nsum (map bumped (<[i := cl']> cls)))%N) ->
    (forall k, kept k -> is_Some (st_keys s' !! k)) ->
    inv (l ++ [(i, length (cl_done cl))]) (<[i := cl']> cls, s').
  Proof.
    intros Hf Hn Hl Hcl Hi Hsc Hc Hni Hks Hci Hcnt Hkept.
    destruct (order_more l h i (length (cl_done cl)) c) as (Hf' & Hn' & _); [done..| |].
    { unfold call_at. cbn. by rewrite Hsc. }
    exists (h ++ [c]). cbn [fst snd]. split; [done|]. split; [done|].
    split; [by rewrite insert_length|]. split; [by rewrite run_calls_snoc|].
    split; [|split; [done|done]].
    intros j cj scj Hj Hscj. destruct (decide (i = j)) as [<-|Hne].
    - rewrite list_lookup_insert in Hj by (by eapply lookup_lt_Some). injection Hj as <-.
      by assert (scj = sc) as -> by congruence.
    - rewrite list_lookup_insert_ne in Hj by done.
      apply client_inv_more; [by eapply Forall2_length|done|]. by eapply Hcl.
  Qed.

  Lemma inv_step l x i y : inv l x -> sys_step i x = Some y ->
    exists l', l `prefix_of` l' /\ inv l' y.
  Proof.
    intros (h & Hf & Hn & Hl & Hk & Hcl & Hcnt & Hkept) Hs. destruct x as [cls s].
    cbn [fst snd] in *. unfold sys_step in Hs. cbn [fst snd] in Hs.
    destruct (cls !! i) as [cl|] eqn:Hi; [|done].
    destruct (client_step cl s) as [[cl' s']|] eqn:Hst; [|done]. injection Hs as <-.
    assert (exists sc, scripts !! i = Some sc) as [sc Hsc].
    { apply lookup_lt_is_Some. rewrite <-Hl. by eapply lookup_lt_Some. }
    pose proof (Hcl i cl sc Hi Hsc) as Hci. pose proof Hci as (H1 & H2 & H3 & H4 & H5).
    pose proof (Forall2_length _ _ _ Hf) as Hlen.
    unfold client_step in Hst. destruct (cl_now cl) as [p|] eqn:Hnow.
    2: { (* begins a call *)
      assert (Hb : begun cl = length (cl_done cl)) by (unfold begun; rewrite Hnow; lia).
      destruct (cl_todo cl) as [|c rest] eqn:Htodo; [done|]. injection Hst as <- <-.
      rewrite Hb in H1. symmetry in H1.
      assert (Hc : sc !! length (cl_done cl) = Some c).
      { pose proof (lookup_drop sc (length (cl_done cl)) 0) as E. rewrite H1 in E. cbn in E.
        by rewrite Nat.add_0_r in E. }
      assert (Hrest : rest = drop (S (length (cl_done cl))) sc).
      { rewrite (drop_S _ c) in H1 by done. by injection H1. }
      assert (Hlt : length (cl_done cl) < length sc) by (by eapply lookup_lt_Some).
      assert (Hni : (i, length (cl_done cl)) ∉ l) by (intros Hin; apply H3 in Hin; lia).
      set (p := dispatch_prog _ _ _).
      assert (Hbu : forall q, bumped (Client (cl_done cl) (Some q) rest) = bumped cl \/
        (bumped cl <= bumped (Client (cl_done cl) (Some q) rest))%N).
      { intros q. right. unfold bumped. cbn [cl_done cl_now]. rewrite Hnow. destruct q; lia. }
      assert (Hcnt' : forall m, (count s m <= count s0 m +
        nsum (map bumped (<[i := Client (cl_done cl) (Some p) rest]> cls)))%N).
      { intros m. specialize (Hcnt m). pose proof (bumped_insert cls i cl (Client (cl_done cl) (Some p) rest) Hi).
        destruct (Hbu p); lia. }
      destruct (command_prog (c_env c) (c_req c) (c_res c)) as [r| | | | | | | |] eqn:Hp.
      { (* and takes effect at once *)
        exists (l ++ [(i, length (cl_done cl))]). split; [by apply prefix_app_r|].
        destruct (order_more l h i (length (cl_done cl)) c) as (_ & _ & Hrm); [done..| |].
        { unfold call_at. cbn. by rewrite Hsc. }
        destruct (dispatch_cmd (c_env c) (run_calls h s0).1 (c_req c) (c_res c) Hrm) as [D1 D2].
        rewrite Hp in D1, D2. cbn [run fst snd] in D1, D2.
        eapply inv_effect; try done.
        - by rewrite D2.
        - unfold client_inv, begun. cbn [cl_done cl_now cl_todo].
          replace (length (cl_done cl) + 1) with (S (length (cl_done cl))) by lia.
          split; [done|]. split; [lia|]. split; [|split].
          + intros j [Hj|Hj%elem_of_list_singleton]%elem_of_app; [apply H3 in Hj; lia|].
            injection Hj as ->. lia.
          + intros j r' Hj. by apply placed_more, H4.
          + exists c, (TRun (PRet r)). split; [done|]. split; [by rewrite <-Hp|].
            right. exists r. split; [done|]. rewrite <-D1. by apply placed_last. }
      all: exists l; split; [done|]; eapply inv_same; try done; unfold client_inv, begun;
        cbn [cl_done cl_now cl_todo];
        replace (length (cl_done cl) + 1) with (S (length (cl_done cl))) by lia;
        (split; [done|]); (split; [lia|]);
        (split; [by intros j Hj; apply H3 in Hj; lia|]); (split; [done|]);
        exists c, (tstart c); (split; [done|]); (split; [done|]); left; rewrite Hp; done. }
    destruct H5 as (c & x & Hc & -> & Hx).
    assert (Hb : begun cl = S (length (cl_done cl))) by (unfold begun; rewrite Hnow; lia).
    assert (Hlt : length (cl_done cl) < length sc) by (by eapply lookup_lt_Some).
    assert (Hissued : issued scripts c).
    { exists (i, length (cl_done cl)). unfold call_at. cbn. by rewrite Hsc. }
    assert (Hq : tquiet x).
    { destruct x as [q|r]; [|done]. destruct Hx as [(-> & _)|(r & -> & _)]; [apply command_quiet|done]. }
    assert (Hret : (exists r, tprog c x = PRet r) \/ (forall r, tprog c x <> PRet r)).
    { destruct (tprog c x) as [r| | | | | | | |]; [left; by exists r|right; done..]. }
    destruct Hret as [[r Hr]|Hnr].
    - (* returns *)
      rewrite Hr in Hst. injection Hst as <- <-. exists l. split; [done|].
      assert (Hpl : placed l h i (length (cl_done cl)) r).
      { destruct (tprog_ret _ _ _ Hr Hq) as [->|[-> ->]]; [done|].
        destruct Hx as [(_ & Hx & _)|(r & [= <-] & Hx)]; [by destruct (Hx CPanic)|done]. }
      eapply inv_same; try done.
      + unfold client_inv, begun. cbn [cl_done cl_now cl_todo]. rewrite app_length. cbn [length].
        rewrite H1, Hb. replace (length (cl_done cl) + 1 + 0) with (S (length (cl_done cl))) by lia.
        split; [done|]. split; [lia|]. split; [by rewrite <-Hb|]. split; [|done].
        intros j r' Hj. apply lookup_app_Some in Hj as [Hj|[Hge Hj]]; [by apply H4|].
        apply list_lookup_singleton_Some in Hj as [Hj <-].
        by assert (j = length (cl_done cl)) as -> by lia.
      + intros m. specialize (Hcnt m).
        pose proof (bumped_insert cls i cl (Client (cl_done cl ++ [r]) None (cl_todo cl)) Hi) as E.
        assert (bumped (Client (cl_done cl ++ [r]) None (cl_todo cl)) = bumped cl) as E'.
        { unfold bumped. cbn [cl_done cl_now]. rewrite Hnow, Hr, app_length. cbn. lia. }
        lia.
    - assert (Hst' : match pstep (tprog c x) s with
        | Some (p', s') => Some (Client (cl_done cl) (Some p') (cl_todo cl), s') | None => None end
        = Some (cl', s')).
      { destruct (tprog c x) as [r| | | | | | | |]; [by destruct (Hnr r)|done..]. }
      clear Hst. rewrite tstep_prog in Hst' by done.
      destruct (tstep c x s) as [[x' s1]|] eqn:Ht; [|done]. injection Hst' as <- <-.
      assert (Hb0 : bumped cl = N.of_nat (length (cl_done cl))).
      { unfold bumped. rewrite Hnow. destruct (tprog c x) as [r| | | | | | | |]; [by destruct (Hnr r)|..]; lia. }
      assert (Hcnt' : forall p s2, (forall m, (count s2 m <= count s m)%N) ->
        forall m, (count s2 m <= count s0 m +
          nsum (map bumped (<[i := Client (cl_done cl) (Some p) (cl_todo cl)]> cls)))%N).
      { intros p s2 Hs2 m. specialize (Hcnt m). specialize (Hs2 m).
        pose proof (bumped_insert cls i cl (Client (cl_done cl) (Some p) (cl_todo cl)) Hi) as E.
        assert (bumped cl <= bumped (Client (cl_done cl) (Some p) (cl_todo cl)))%N.
        { rewrite Hb0. unfold bumped. cbn [cl_done cl_now]. destruct p; lia. }
        lia. }
      destruct (tstep_run_cases _ _ _ _ _ Ht) as [(q & q' & -> & -> & Hp)|(r & -> & Hbump)].
      + (* the step of the command *)
        destruct Hx as [(-> & Hx & Hni)|(r & -> & _)]; [|done].
        pose proof (Hsimple c Hissued) as Hone.
        assert (Hone' : one_access (c_req c) \/ one_update (c_req c)) by (destruct Hone as [?|[? _]]; auto).
        assert (exists r, q' = PRet r) as [r ->].
        { destruct Hone as [Hone|[Hone Hup]].
          - destruct (one_access_single (c_env c) (c_req c) (c_res c) Hone s) as [[r Hr]|(r & s2 & Hr)];
              [done|by destruct (Hx r)|]. rewrite Hp in Hr. injection Hr as -> _. by exists r.
          - destruct (one_update_single (c_env c) (c_req c) (c_res c) Hone s) as [[r Hr]|(r & s2 & Hr)];
              [|by destruct (Hx r)|rewrite Hp in Hr; injection Hr as -> _; by exists r].
            intros k Hk'. apply Hkept. by exists c. }
        exists (l ++ [(i, length (cl_done cl))]). split; [by apply prefix_app_r|].
        destruct (order_more l h i (length (cl_done cl)) c) as (_ & _ & Hrm); [done..| |].
        { unfold call_at. cbn. by rewrite Hsc. }
        destruct (dispatch_cmd (c_env c) (run_calls h s0).1 (c_req c) (c_res c) Hrm) as [D1 D2].
        destruct (pstep_keys _ s (run_calls h s0).1 r s1 (one_no_counter _ _ _ Hone') Hk Hp) as [E1 E2].
        eapply inv_effect; try done.
        * by rewrite D2, E2.
        * unfold client_inv, begun. cbn [cl_done cl_now cl_todo].
          replace (length (cl_done cl) + 1) with (S (length (cl_done cl))) by lia. rewrite H1, Hb.
          split; [done|]. split; [lia|]. split; [|split].
          -- intros j [Hj|Hj%elem_of_list_singleton]%elem_of_app; [apply H3 in Hj; lia|].
             injection Hj as ->. lia.
          -- intros j r' Hj. by apply placed_more, H4.
          -- exists c, (TRun (PRet r)). split; [done|]. split; [done|].
             right. exists r. split; [done|]. rewrite <-E1, <-D1. by apply placed_last.
        * apply Hcnt'. intros m. rewrite (count_counters s1 s); [lia|]. by eapply quiet_keeps.
        * intros k Hkk. eapply first_step_keeps; [exact Hone'| |exact Hp|by apply Hkept].
          destruct Hkk as (d & Hd & Hdu & Hdk). destruct (Hsimple d Hd) as [Ha|[_ Ha]].
          -- unfold one_access, one_update in *. by destruct (r_command (c_req d)).
          -- intros Hdel. by apply (Ha k Hdk).
      + (* the counter *)
        destruct Hx as [(_ & Hx & _)|(r' & [= <-] & Hpl)]; [by destruct (Hx r)|].
        assert (Hle : forall m, (count s m + 1 < u64_mod)%N).
        { intros m. specialize (Hcnt m). specialize (Hroom m).
          assert (nsum (map bumped (<[i := Client (cl_done cl ++ [r]) None (cl_todo cl)]> cls)) <=
            lenN (concat scripts))%N as Htot.
          { apply bumped_total; [by rewrite insert_length|]. intros j cj scj Hj Hscj.
            destruct (decide (i = j)) as [<-|Hne].
            - rewrite list_lookup_insert in Hj by (by eapply lookup_lt_Some). injection Hj as <-.
              assert (scj = sc) as -> by congruence. unfold bumped. cbn [cl_done cl_now].
              rewrite app_length. cbn. lia.
            - rewrite list_lookup_insert_ne in Hj by done. by eapply bumped_le, Hcl. }
          pose proof (bumped_insert cls i cl (Client (cl_done cl ++ [r]) None (cl_todo cl)) Hi) as E.
          rewrite Hb0 in E. unfold bumped at 3 in E. cbn [cl_done cl_now] in E.
          rewrite app_length in E. cbn [length] in E. change u64_mod with (2 ^ 64)%N. lia. }
        assert (Hout : x' = TDone r /\ st_keys s1 = st_keys s /\ forall m, (count s1 m <= count s m + 1)%N).
        { unfold bump in Hbump. destruct r as [b|err b|]; [| |done].
          all: rewrite counters_inc_at in Hbump by done; injection Hbump as <- <-.
          all: split; [done|]; split; [done|]; intros m; unfold count; cbn [st_counters].
          all: match goal with |- context [<[?k := _]> _] => destruct (decide (k = m)) as [<-|] end.
          all: rewrite ?lookup_insert, ?lookup_insert_ne by done; cbn; lia. }
        destruct Hout as (-> & Hks & Hcs). exists l. split; [done|]. eapply inv_same; try done.
        * unfold client_inv, begun. cbn [cl_done cl_now cl_todo].
          replace (length (cl_done cl) + 1) with (S (length (cl_done cl))) by lia. rewrite H1, Hb.
          split; [done|]. split; [lia|]. split; [intros j Hj; apply H3 in Hj; lia|]. split; [done|].
          exists c, (TDone r). done.
        * intros m. specialize (Hcnt m). specialize (Hcs m).
          pose proof (bumped_insert cls i cl (Client (cl_done cl) (Some (tprog c (TDone r))) (cl_todo cl)) Hi) as E.
          rewrite Hb0 in E. unfold bumped at 3 in E. cbn [cl_done cl_now tprog] in E |- *. lia.
  Qed.

  Lemma inv_begin : inv [] (begin scripts s0).
  Proof.
    exists []. cbn [fst snd begin]. split; [constructor|]. split; [constructor|].
    split; [by rewrite map_length|]. split; [done|]. split; [|split].
    - intros i cl sc Hi Hsc. rewrite list_lookup_fmap, Hsc in Hi. injection Hi as <-.
      unfold client_inv, begun. cbn. split; [done|]. split; [lia|].
      split; [by intros j Hj%elem_of_nil|]. done.
    - intros m. lia.
    - intros k (c & Hc & Hu & Hk). destruct (Hsimple c Hc) as [Ha|[_ Ha]].
      + unfold one_access, one_update in *. by destruct (r_command (c_req c)).
      + by apply (Ha k).
  Qed.

  Lemma inv_explains l x : inv l x -> explains scripts s0 l x.
  Proof.
    intros (h & Hf & Hn & Hl & Hk & Hcl & _). exists h. split; [done|]. split; [done|]. split; [done|].
    intros i cl Hi.
    assert (exists sc, scripts !! i = Some sc) as [sc Hsc].
    { apply lookup_lt_is_Some. rewrite <-Hl. by eapply lookup_lt_Some. }
    destruct (Hcl i cl sc Hi Hsc) as (_ & _ & H3 & H4 & _). split; [done|]. exact H4.
  Qed.

  Lemma inv_run sched : forall x, sys_run sched (begin scripts s0) = Some x ->
    exists lin : nat -> list (nat * nat), forall n y, n <= length sched ->
      sys_run (take n sched) (begin scripts s0) = Some y ->
      inv (lin n) y /\ forall m, m <= n -> lin m `prefix_of` lin n.
  Proof.
    induction sched as [|i sched IH] using rev_ind; intros x Hx.
    - exists (fun _ => []). intros n y Hn Hy. cbn in Hn. assert (n = 0) as -> by lia.
      injection Hy as <-. split; [apply inv_begin|done].
    - rewrite sys_run_app in Hx. destruct (sys_run sched (begin scripts s0)) as [z|] eqn:Hz; [|done].
      cbn in Hx. destruct (sys_step i z) as [x'|] eqn:Hs; [|done]. injection Hx as ->.
      destruct (IH z eq_refl) as [lin Hlin].
      destruct (Hlin (length sched) z) as [Hi Hp]; [done|by rewrite firstn_all|].
      destruct (inv_step _ _ _ _ Hi Hs) as (l' & Hpre & Hi').
      exists (fun n => if decide (n <= length sched) then lin n else l').
      intros n y Hn Hy. rewrite app_length in Hn. cbn in Hn.
      destruct (decide (n <= length sched)) as [Hle|Hgt].
      + rewrite take_app_le in Hy by done. destruct (Hlin n y Hle Hy) as [Q1 Q2]. split; [done|].
        intros m Hm. rewrite decide_True by lia. by apply Q2.
      + assert (n = length (sched ++ [i])) as -> by (rewrite app_length; cbn; lia).
        rewrite firstn_all, sys_run_app, Hz in Hy. cbn in Hy. rewrite Hs in Hy. injection Hy as <-.
        split; [done|]. intros m Hm. destruct (decide (m <= length sched)); [|done].
        transitivity (lin (length sched)); [by apply Hp|done].
  Qed.
End inv.

Lemma c74 scripts s0 sched x :
  room_for_all scripts s0 -> simple scripts s0 -> sys_run sched (begin scripts s0) = Some x ->
  linearizable scripts s0 sched.
Proof.
  intros Hr Hs Hx. destruct (inv_run scripts s0 Hr Hs sched x Hx) as [lin Hlin].
  exists lin. intros n y Hn Hy. destruct (Hlin n y Hn Hy) as [H1 H2]. split; [|done].
  by apply inv_explains.
Qed.

Lemma issued_concat scripts c : issued scripts c -> c ∈ concat scripts.
Proof.
  intros [[i j] H]. unfold call_at in H. cbn in H.
  destruct (scripts !! i) as [h|] eqn:Hi; [|done]. cbn in H.
  apply elem_of_list_In, in_concat. exists h.
  split; apply elem_of_list_In; by eapply elem_of_list_lookup_2.
Qed.
