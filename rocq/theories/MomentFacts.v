(** Proofs about commands that look at the data more than once (C111). *)
From Verif Require Import Bytes BytesFacts Value CommandId Request RequestSpec RequestFacts Response WireSpec RespContext Metrics Prog ProgFacts Commands
  Concurrent HistorySpec ConcSpec ConcFacts ConcProps EngineFacts EngineProps MomentSpec.
From stdpp Require Import gmap list.
From Coq Require Import NArith ZArith Lia.

(** ** The steps of one client *)

(** [q] comes of [p] by steps in these stores. *)
Fixpoint passes (p : prog) (l : list (nat * store * store)) (q : prog) : Prop :=
  match l with
  | [] => p = q
  | (n, s, s') :: l => exists p', pstep p s = Some (p', s') /\ passes p' l q
  end.

Lemma passes_snoc p l q n s q' s' :
  passes p l q -> pstep q s = Some (q', s') -> passes p (l ++ [(n, s, s')]) q'.
Proof.
  revert p. induction l as [|[[n1 s1] s1'] l IH]; intros p; cbn [passes app].
  - intros -> H. eauto.
  - intros (p' & H1 & H2) H. exists p'. split; [done|]. by apply IH.
Qed.

Definition own (i : nat) (sched : list nat) (x0 : pool) (m : nat * store * store) : Prop :=
  sched !! m.1.1 = Some i /\ room m.1.2 /\
  exists ts, pool_run (take m.1.1 sched) x0 = Some (ts, m.1.2) /\ forall r, ts !! i <> Some (PRet r).

Definition steps_of (i : nat) (sched : list nat) (x0 : pool) (l : list (nat * store * store)) : Prop :=
  forall n x y, sched !! n = Some i ->
    pool_run (take n sched) x0 = Some x -> pool_run (take (S n) sched) x0 = Some y ->
    (n, x.2, y.2) ∈ l \/ (st_keys y.2 = st_keys x.2 /\ forall m, m ∈ l -> m.1.1 <> n).

Lemma own_more i sched x0 j m : own i sched x0 m -> own i (sched ++ [j]) x0 m.
Proof.
  intros (H1 & Hr & ts & H2 & H3). split; [by apply lookup_app_l_Some|]. split; [done|].
  exists ts. split; [|done]. rewrite take_snoc_le; [done|]. apply lookup_lt_Some in H1. lia.
Qed.

Lemma steps_of_more i sched x0 j l l' z y :
  steps_of i sched x0 l -> pool_run sched x0 = Some z -> pool_run (sched ++ [j]) x0 = Some y ->
  Forall (own i sched x0) l ->
  (j <> i /\ l' = l) \/ (j = i /\ ((l' = l ++ [(length sched, z.2, y.2)]) \/ (st_keys y.2 = st_keys z.2 /\ l' = l))) ->
  steps_of i (sched ++ [j]) x0 l'.
Proof.
  intros Hok Hz Hy Hown Hl n a b Hn Ha Hb.
  destruct (decide (n < length sched)) as [Hlt|Hge].
  - rewrite lookup_app_l in Hn by done. rewrite take_snoc_le in Ha by lia.
    rewrite take_snoc_le in Hb by lia. destruct (Hok n a b Hn Ha Hb) as [H|[H H']].
    + left. destruct Hl as [[_ ->]|[_ [->|[_ ->]]]]; [done| |done]. apply elem_of_app. by left.
    + right. split; [done|]. destruct Hl as [[_ ->]|[_ [->|[_ ->]]]]; [done| |done].
      intros m [Hm|Hm]%elem_of_app; [by apply H'|]. apply elem_of_list_singleton in Hm as ->. cbn. lia.
  - assert (n = length sched) as ->.
    { apply lookup_lt_Some in Hn. rewrite app_length in Hn. cbn in Hn. lia. }
    rewrite lookup_app_r, Nat.sub_diag in Hn by lia. injection Hn as ->.
    rewrite take_app in Ha. rewrite firstn_all2 in Hb by (rewrite app_length; cbn; lia).
    assert (a = z) as -> by congruence. assert (b = y) as -> by congruence.
    destruct Hl as [[Hne _]|[_ [->|[Hk ->]]]]; [done| |].
    + left. apply elem_of_app. right. by apply elem_of_list_singleton.
    + right. split; [done|]. intros m Hm. rewrite Forall_forall in Hown. apply Hown in Hm as [Hm _].
      apply lookup_lt_Some in Hm. lia.
Qed.

Lemma client_steps cs s0 i c sched ts s r :
  room_for cs s0 -> cs !! i = Some c -> reaches cs s0 sched ts s -> ts !! i = Some (PRet r) ->
  exists l, passes (command_prog (c_env c) (c_req c) (c_res c)) l (PRet r) /\
    Forall (own i sched (start cs s0)) l /\ steps_of i sched (start cs s0) l /\ NoDup ((fun m => m.1.1) <$> l).
Proof.
  intros Hroom Hc Hr Hi.
  destruct (conc_inv_sched cs s0 (fun sched xs s =>
    forall x, xs !! i = Some x -> exists l q,
      passes (command_prog (c_env c) (c_req c) (c_res c)) l q /\
      (x = TRun q \/ exists r, q = PRet r /\ x = TDone r) /\
      Forall (own i sched (start cs s0)) l /\ steps_of i sched (start cs s0) l /\ NoDup ((fun m => m.1.1) <$> l)) Hroom)
    with (sched := sched) (ts := ts) (s := s) as (xs & Hl & -> & Hq & Hcnt & HP); [| | |done|].
  - intros x Hx. rewrite (start_lookup _ _ _ Hc) in Hx. injection Hx as <-.
    exists [], (command_prog (c_env c) (c_req c) (c_res c)). split; [done|]. split; [by left|]. split; [done|].
    split; [intros n x y Hn; done|constructor].
  - intros sch xs s1 j c' q q' s' Hl1 Hre Hcn HP Hc' Hx Hqq Hst x Hx'.
    assert (Hy : exists y, pool_run (sch ++ [j]) (start cs s0) = Some y /\ y.2 = s').
    { rewrite pool_run_app, Hre. cbn. unfold pool_step. cbn [fst snd].
      rewrite lookup_zip_with, Hc', Hx. cbn [tprog mbind option_bind].
      pose proof (tstep_prog c' (TRun q) s1 Hqq) as E. cbn [tprog] in E. rewrite E.
      destruct q; cbn in Hst; try done; cbn [tstep pstep]; rewrite ?Hst.
      all: try (injection Hst as <- <-; by eexists).
      all: cbn in Hst |- *; destruct (st_keys s1 !! k) as [v|]; [destruct (upd v)|];
        injection Hst as <- <-; by eexists. }
    destruct Hy as (y & Hy & Hys). destruct (decide (j = i)) as [->|Hne].
    + rewrite list_lookup_insert in Hx' by (by eapply lookup_lt_Some). injection Hx' as <-.
      assert (c' = c) as -> by congruence.
      destruct (HP _ Hx) as (l & q0 & Hpass & [[= <-]|(r' & -> & ?)] & Hown & Hsteps & Hnd); [|done].
      exists (l ++ [(length sch, s1, s')]), q'. split; [by eapply passes_snoc|]. split; [by left|]. split.
      * apply Forall_app. split; [eapply Forall_impl; [exact Hown|]; intros; by apply own_more|].
        apply Forall_singleton. split; [cbn; by rewrite lookup_app_r, Nat.sub_diag by lia|]. cbn [fst snd].
        split; [by eapply counted_room|]. eexists. split; [rewrite take_app; exact Hre|].
        intros r0. rewrite lookup_zip_with, Hc, Hx. cbn. intros [= E]. by destruct q.
      * split; [eapply steps_of_more; [exact Hsteps|exact Hre|exact Hy|done|]; right; split; [done|]; left; cbn; by rewrite Hys|].
        rewrite fmap_app. apply NoDup_app. split; [done|]. split; [|apply NoDup_singleton].
        intros n (m & -> & Hm)%elem_of_list_fmap Hn. cbn in Hn. apply elem_of_list_singleton in Hn.
        apply (proj1 (Forall_forall _ _) Hown) in Hm as [Hm _]. apply lookup_lt_Some in Hm. lia.
    + rewrite list_lookup_insert_ne in Hx' by done.
      destruct (HP _ Hx') as (l & q0 & Hpass & Hx0 & Hown & Hsteps & Hnd). exists l, q0. split; [done|]. split; [done|].
      split; [eapply Forall_impl; [exact Hown|]; intros; by apply own_more|].
      split; [|done]. eapply steps_of_more; [exact Hsteps|exact Hre|exact Hy|done|]. by left.
  - intros sch xs s1 j c' r' s' Hl1 Hre Hcn HP Hc' Hx Hnp Hk x Hx'.
    assert (Hy : exists y, pool_run (sch ++ [j]) (start cs s0) = Some y /\ st_keys y.2 = st_keys s1).
    { rewrite pool_run_app, Hre. cbn. unfold pool_step. cbn [fst snd].
      rewrite lookup_zip_with, Hc', Hx. cbn [tprog mbind option_bind pbind].
      destruct r'; cbn; try done; destruct (counters_increment _ _ _); by eexists. }
    destruct Hy as (y & Hy & Hys).
    destruct (decide (j = i)) as [->|Hne].
    + rewrite list_lookup_insert in Hx' by (by eapply lookup_lt_Some). injection Hx' as <-.
      destruct (HP _ Hx) as (l & q0 & Hpass & [[= <-]|(? & ? & ?)] & Hown & Hsteps & Hnd); [|done].
      exists l, (PRet r'). split; [done|]. split; [right; eauto|].
      split; [eapply Forall_impl; [exact Hown|]; intros; by apply own_more|].
      split; [|done]. eapply steps_of_more; [exact Hsteps|exact Hre|exact Hy|done|]. right. split; [done|]. by right.
    + rewrite list_lookup_insert_ne in Hx' by done.
      destruct (HP _ Hx') as (l & q0 & Hpass & Hx0 & Hown & Hsteps & Hnd). exists l, q0. split; [done|]. split; [done|].
      split; [eapply Forall_impl; [exact Hown|]; intros; by apply own_more|].
      split; [|done]. eapply steps_of_more; [exact Hsteps|exact Hre|exact Hy|done|]. by left.
  - rewrite lookup_zip_with, Hc in Hi. cbn in Hi.
    destruct (xs !! i) as [x|] eqn:Hx; [|done]. cbn in Hi. injection Hi as Hi.
    pose proof (Forall_lookup_1 _ _ _ _ Hq Hx) as Hqx.
    destruct (HP _ eq_refl) as (l & q & Hpass & Hxq & Hown & Hsteps & Hnd). exists l.
    destruct (tprog_ret _ _ _ Hi Hqx) as [->|[-> ->]].
    + destruct Hxq as [?|(r0 & -> & [= ->])]; [done|done].
    + destruct Hxq as [[= <-]|(r0 & -> & ?)]; [done|done].
Qed.

Lemma own_moment i sched x0 m : own i sched x0 m -> moment i sched x0 m.1.2.
Proof. intros (H & _ & ts & H' & _). by exists m.1.1, ts. Qed.

(** ** Commands that only read *)

Definition harmless (l : list (nat * store * store)) : Prop := Forall (fun m => m.2 = m.1.2) l.

Lemma linearized_read cs s0 i c sched r l m :
  room_for cs s0 -> cs !! i = Some c -> Forall (own i sched (start cs s0)) l -> steps_of i sched (start cs s0) l ->
  harmless l -> m ∈ l ->
  run (command_prog (c_env c) (c_req c) (c_res c)) m.1.2 = (m.1.2, r) ->
  linearized i c sched (start cs s0) r.
Proof.
  intros Hroom Hc Hown Hsteps Hl Hm E. pose proof (proj1 (Forall_forall _ _) Hown m Hm) as (H1 & Hrm & ts & H2 & H3).
  exists m.1.1, ts, m.1.2. split; [apply lookup_lt_Some in H1; lia|]. split; [done|]. split; [by right|].
  destruct (dispatch_cmd (c_env c) m.1.2 (c_req c) (c_res c) Hrm) as [D1 D2]. cbn zeta.
  rewrite D1, D2, E. cbn [fst snd]. split; [done|]. split; [done|].
  intros n x y Hn Hx Hy.
  assert (Hk : st_keys y.2 = st_keys x.2).
  { destruct (Hsteps n x y Hn Hx Hy) as [H|[H _]]; [|done].
    pose proof (proj1 (Forall_forall _ _) Hl _ H) as E'. cbn in E'. by rewrite E'. }
  rewrite Hk. destruct (decide (n = m.1.1)) as [->|]; [|done]. rewrite H2 in Hx. by injection Hx as <-.
Qed.

Lemma linearized_at_once cs s0 i c sched r :
  room_for cs s0 -> cs !! i = Some c -> steps_of i sched (start cs s0) [] ->
  command_prog (c_env c) (c_req c) (c_res c) = PRet r -> linearized i c sched (start cs s0) r.
Proof.
  intros Hroom Hc Hsteps E. exists 0, (start cs s0).1, s0. split; [lia|]. split; [done|]. split; [by left|].
  destruct (dispatch_cmd (c_env c) s0 (c_req c) (c_res c)) as [D1 D2]; [by eapply room_for_room|]. cbn zeta.
  rewrite D1, D2, E. cbn [run fst snd]. split; [done|]. split; [done|].
  intros n x y Hn Hx Hy.
  assert (Hk : st_keys y.2 = st_keys x.2).
  { destruct (Hsteps n x y Hn Hx Hy) as [H|[H _]]; [|done]. by apply elem_of_nil in H. }
  rewrite Hk. destruct (decide (n = 0)) as [->|]; [|done]. cbn in Hx. by injection Hx as <-.
Qed.

(** ** Exists and Is *)

Definition is_there (t : option key_type) (v : option value) : bool :=
  match v with
  | Some v => match t with Some t => bool_decide (kind v = t) | None => true end
  | None => false
  end.

Lemma is_there_spec t k s : is_there t (st_keys s !! k) = true <-> there t k s.
Proof.
  unfold is_there, there. destruct (st_keys s !! k) as [v|].
  - destruct t as [t|].
    + rewrite bool_decide_eq_true. split; [intros <-; eexists; split; [done|]; by intros ? [= <-]|].
      intros (v' & [= <-] & H). by apply H.
    + split; [intros _; by exists v|done].
  - split; [done|]. by intros (v & ? & _).
Qed.

Definition all_there (t : option key_type) (ks : list bytes) (cont : bool -> prog) : prog :=
  match t with None => all_exist ks cont | Some t => all_are t ks cont end.

Lemma all_there_cons t k ks cont s :
  pstep (all_there t (k :: ks) cont) s =
    Some (if is_there t (st_keys s !! k) then all_there t ks cont else cont false, s).
Proof. destruct t as [t|]; cbn; [by destruct (st_keys s !! k)|by destruct (st_keys s !! k)]. Qed.

Lemma run_all_there t ks (f : bool -> cres) s :
  run (all_there t ks (fun b => PRet (f b))) s = (s, f (forallb (fun k => is_there t (st_keys s !! k)) ks)).
Proof.
  induction ks as [|k ks IH]; [by destruct t|].
  rewrite <-(run_pstep _ _ _ _ (all_there_cons t k ks _ s)). cbn [forallb].
  destruct (is_there t (st_keys s !! k)); [exact IH|done].
Qed.

Lemma passes_ret r l q : passes (PRet r) l q -> l = [] /\ q = PRet r.
Proof. destruct l as [|[[n s] s'] l]; [by intros <-|]. by intros (p & ? & _). Qed.

Lemma passes_all_there t ks (f : bool -> cres) l r :
  passes (all_there t ks (fun b => PRet (f b))) l (PRet r) ->
  harmless l /\
  ((r = f true /\ forall k, k ∈ ks -> exists m, m ∈ l /\ there t k m.1.2) \/
   (r = f false /\ exists m k, m ∈ l /\ k ∈ ks /\ ~ there t k m.1.2)).
Proof.
  revert l. induction ks as [|k ks IH]; intros l H.
  - assert (E : all_there t [] (fun b => PRet (f b)) = PRet (f true)) by (by destruct t). rewrite E in H.
    apply passes_ret in H as [-> [= ->]]. split; [constructor|]. left. split; [done|]. by intros k ?%elem_of_nil.
  - destruct l as [|[[n s] s'] l].
    { by destruct t. }
    destruct H as (p' & Hp & H). rewrite all_there_cons in Hp. injection Hp as <- <-.
    destruct (is_there t (st_keys s !! k)) eqn:Ek.
    + destruct (IH _ H) as [Hh Hr]. split; [by constructor|].
      destruct Hr as [[-> Hr]|[-> (m & k' & Hm & Hk & Hr)]]; [left|right].
      * split; [done|]. intros k' [->|Hk]%elem_of_cons.
        { exists (n, s, s). split; [left|]. by apply is_there_spec. }
        destruct (Hr _ Hk) as (m & Hm & ?). exists m. split; [by right|done].
      * split; [done|]. exists m, k'. split; [by right|]. split; [by right|done].
    + apply passes_ret in H as [-> [= ->]]. split; [by repeat constructor|]. right. split; [done|].
      exists (n, s, s), k. split; [left|]. split; [left|]. rewrite <-is_there_spec. cbn [fst snd]. by rewrite Ek.
Qed.

Lemma question_prog e req res t ks :
  question req t ks ->
  (ks = [] /\ exists r, command_prog e req res = PRet r) \/
  (ks <> [] /\ command_prog e req res = all_there t ks (fun b => PRet (COk (write_bool res b)))).
Proof.
  intros H. destruct ks as [|k ks].
  - left. split; [done|]. unfold question in H. destruct t as [t|]; destruct H as (H1 & H2 & H3 & _);
      unfold command_prog, cmd_exists, cmd_is, args_all, args; rewrite H1, H2, H3; cbn; by eexists.
  - right. split; [done|].
    destruct t as [t|]; destruct H as (H1 & H2 & H3); unfold command_prog, cmd_exists, cmd_is;
      rewrite H1, H2; destruct (args_all_collect req (k :: ks) H3) as (a & -> & ->); done.
Qed.

Lemma question_run e req res t ks s : question req t ks -> ks <> [] ->
  run (command_prog e req res) s = (s, COk (write_bool res (forallb (fun k => is_there t (st_keys s !! k)) ks))).
Proof.
  intros Hq Hne. destruct (question_prog e req res t ks Hq) as [[? _]|[_ ->]]; [done|].
  exact (run_all_there t ks (fun b => COk (write_bool res b)) s).
Qed.

Lemma responds_bool e res b b' : responds e res (VBoolean b) (COk (write_bool res b')) <-> b = b'.
Proof.
  split.
  - intros [(msg & E & H)|(_ & H & _)]; [|by destruct H].
    unfold write_bool in E. injection E as E. apply app_inv_head in E. subst msg.
    specialize (H I false I eq_refl). destruct b, b'; try done; vm_compute in H; discriminate.
  - intros ->. left. eexists. split; [reflexivity|]. intros _ dbg _ _. destruct b', dbg; vm_compute; reflexivity.
Qed.

(** ** Exists and Is *)

Lemma c111_true cs s0 i c t ks sched ts s r :
  room_for cs s0 -> cs !! i = Some c -> question (c_req c) t ks ->
  reaches cs s0 sched ts s -> ts !! i = Some (PRet r) ->
  responds (c_env c) (c_res c) (VBoolean true) r ->
  forall k, k ∈ ks -> exists s1, moment i sched (start cs s0) s1 /\ there t k s1.
Proof.
  intros Hroom Hc Hq Hr Hi Ht k Hk. destruct (client_steps _ _ _ _ _ _ _ _ Hroom Hc Hr Hi) as (l & Hp & Hown & _).
  destruct (question_prog (c_env c) (c_req c) (c_res c) t ks Hq) as [[-> _]|[_ E]]; [by apply elem_of_nil in Hk|].
  rewrite E in Hp. destruct (passes_all_there t ks (fun b => COk (write_bool (c_res c) b)) _ _ Hp) as [_ [[-> H]|[-> _]]].
  - destruct (H k Hk) as (m & Hm & Hth). exists m.1.2. split; [|done].
    apply own_moment. by apply (proj1 (Forall_forall _ _) Hown).
  - by apply responds_bool in Ht.
Qed.

Lemma question_linearized cs s0 i c t ks sched ts s r :
  room_for cs s0 -> cs !! i = Some c -> question (c_req c) t ks ->
  reaches cs s0 sched ts s -> ts !! i = Some (PRet r) ->
  (responds (c_env c) (c_res c) (VBoolean true) r -> forall k, k ∈ ks -> stays sched (start cs s0) t k) ->
  linearized i c sched (start cs s0) r.
Proof.
  intros Hroom Hc Hq Hr Hi Hst. destruct (client_steps _ _ _ _ _ _ _ _ Hroom Hc Hr Hi) as (l & Hp & Hown & Hsteps & Hnd).
  destruct (question_prog (c_env c) (c_req c) (c_res c) t ks Hq) as [[-> [r' E]]|[Hne E]].
  { rewrite E in Hp. apply passes_ret in Hp as [-> [= <-]]. by eapply linearized_at_once. }
  rewrite E in Hp. destruct (passes_all_there t ks (fun b => COk (write_bool (c_res c) b)) _ _ Hp) as [Hh [[-> H]|[-> H]]].
  - assert (Hmax : exists m, m ∈ l /\ forall m', m' ∈ l -> m'.1.1 <= m.1.1).
    { assert (l <> []) as Hl.
      { destruct ks as [|k ks]; [done|]. destruct (H k) as (m & Hm & _); [left|]. intros ->. by apply elem_of_nil in Hm. }
      clear -Hl. induction l as [|a [|b l] IH]; [done| |].
      - exists a. split; [left|]. intros m ->%elem_of_list_singleton. done.
      - destruct IH as (m & Hm & Hmax); [done|]. destruct (decide (a.1.1 <= m.1.1)).
        + exists m. split; [by right|]. intros m' [->|Hm']%elem_of_cons; [done|by apply Hmax].
        + exists a. split; [left|]. intros m' [->|Hm']%elem_of_cons; [done|]. apply Hmax in Hm'. lia. }
    destruct Hmax as (m & Hm & Hmax). eapply linearized_read; [done|done|exact Hown|done|done|exact Hm|].
    rewrite (question_run _ _ _ _ _ _ Hq Hne). do 3 f_equal. apply forallb_forall. intros k Hk%elem_of_list_In.
    apply is_there_spec. destruct (H k Hk) as (m' & Hm' & Hth).
    pose proof (proj1 (Forall_forall _ _) Hown m Hm) as (_ & _ & ts1 & R1 & _).
    pose proof (proj1 (Forall_forall _ _) Hown m' Hm') as (_ & _ & ts2 & R2 & _).
    eapply (Hst (proj2 (responds_bool _ _ _ _) eq_refl) k Hk _ _ _ _ (Hmax _ Hm') R2 R1 Hth).
  - destruct H as (m & k & Hm & Hk & Hn). eapply linearized_read; [done|done|exact Hown|done|done|exact Hm|].
    rewrite (question_run _ _ _ _ _ _ Hq Hne). do 3 f_equal. apply not_true_is_false. intros H.
    apply forallb_forall with (x := k) in H; [|by apply elem_of_list_In]. by apply is_there_spec in H.
Qed.

Lemma c111_false cs s0 i c t ks sched ts s r :
  room_for cs s0 -> cs !! i = Some c -> question (c_req c) t ks ->
  reaches cs s0 sched ts s -> ts !! i = Some (PRet r) ->
  ~ responds (c_env c) (c_res c) (VBoolean true) r ->
  linearized i c sched (start cs s0) r.
Proof. intros Hroom Hc Hq Hr Hi Hn. by eapply question_linearized. Qed.

Lemma c111_stays cs s0 i c t ks sched ts s r :
  room_for cs s0 -> cs !! i = Some c -> question (c_req c) t ks ->
  (forall k, k ∈ ks -> stays sched (start cs s0) t k) ->
  reaches cs s0 sched ts s -> ts !! i = Some (PRet r) ->
  linearized i c sched (start cs s0) r.
Proof. intros Hroom Hc Hq Hs Hr Hi. by eapply question_linearized. Qed.

(** ** Length and Keys without a type *)

Definition len_cont (e : env) (res k : bytes) (kt : key_type) : prog :=
  let out (n : N) := COk (write_int res (Z.of_N n)) in
  match kt with
  | KTBytes => read_variant e res k as_bytes (fun bs => out (lenN bs))
  | KTList => read_variant e res k as_list (fun l => out (lenN l))
  | KTMap => read_variant e res k as_map (fun m => out (N.of_nat (size m)))
  | KTSet => read_variant e res k as_set (fun s => out (N.of_nat (size s)))
  | KTString => read_variant e res k as_string (fun s => out (Utf8.char_count s))
  | _ => fail res EKeyTypeInvalid
  end.

Definition keys_cont (e : env) (res k : bytes) (kt : key_type) : prog :=
  match kt with
  | KTMap => read_variant e res k as_map (fun m => cres_of (write_list e res (map fst (map_iter e m))))
  | _ => fail res EKeyTypeInvalid
  end.

Definition variant_res {A} (res : bytes) (as_ : value -> option A) (cont : A -> cres) (v : option value) : cres :=
  match v with
  | None => CErr EKeyNonexistent res
  | Some v => match as_ v with None => CErr EKeyTypeDifferent res | Some a => cont a end
  end.

Definition len_res (res : bytes) (kt : key_type) : option value -> cres :=
  let out (n : N) := COk (write_int res (Z.of_N n)) in
  match kt with
  | KTBytes => variant_res res as_bytes (fun bs => out (lenN bs))
  | KTList => variant_res res as_list (fun l => out (lenN l))
  | KTMap => variant_res res as_map (fun m => out (N.of_nat (size m)))
  | KTSet => variant_res res as_set (fun s => out (N.of_nat (size s)))
  | KTString => variant_res res as_string (fun s => out (Utf8.char_count s))
  | _ => fun _ => CPanic
  end.

Definition keys_res (e : env) (res : bytes) (kt : key_type) : option value -> cres :=
  variant_res res as_map (fun m => cres_of (write_list e res (map fst (map_iter e m)))).

(** The guards, or none. *)
Lemma guarded_cases e k : (forall p, guarded e k p = PRet CPanic) \/ (forall p, guarded e k p = p).
Proof.
  unfold guarded. destruct (starts_with k reserved_prefix); [by left|].
  destruct (debug e && (lenN k =? 0)%N); [by left|by right].
Qed.

Lemma variant_prog {A} e res k (as_ : value -> option A) cont :
  (forall p, guarded e k p = p) ->
  exists f, read_variant e res k as_ cont = PGet k f /\ forall v, f v = PRet (variant_res res as_ cont v).
Proof.
  intros Hg. unfold read_variant, key_ref. rewrite Hg. eexists. split; [done|].
  intros [v|]; cbn; [|done]. by destruct (as_ v).
Qed.

Lemma linearized_two cs s0 i c sched ts s r k t0 (g : key_type -> option value -> cres) (cont : key_type -> prog) :
  room_for cs s0 -> cs !! i = Some c ->
  command_prog (c_env c) (c_req c) (c_res c) =
    PGet k (fun v => cont (match v with Some v => kind v | None => t0 end)) ->
  (forall t, (exists r, cont t = PRet r) \/
     (exists f, cont t = PGet k f /\ forall v, f v = PRet (g t v)) /\
     (exists f, cont t0 = PGet k f /\ forall v, f v = PRet (g t0 v)) /\ g t None = g t0 None /\
     forall v, kind v <> t -> g t (Some v) = CErr EKeyTypeDifferent (c_res c)) ->
  reaches cs s0 sched ts s -> ts !! i = Some (PRet r) -> r <> CErr EKeyTypeDifferent (c_res c) ->
  linearized i c sched (start cs s0) r.
Proof.
  intros Hroom Hc E Hcont Hr Hi Hne.
  destruct (client_steps _ _ _ _ _ _ _ _ Hroom Hc Hr Hi) as (l & Hp & Hown & Hsteps & _). rewrite E in Hp.
  destruct l as [|[[n1 s1] s1'] l]; [done|]. destruct Hp as (p1 & Hp1 & Hp). injection Hp1 as <- <-.
  set (t1 := match st_keys s1 !! k with Some v => kind v | None => t0 end) in *.
  destruct (Hcont t1) as [[r' Er]|((f & Er & Hf) & (f0 & E0 & Hf0) & Hnone & Hdiff)]; rewrite Er in Hp.
  - apply passes_ret in Hp as [-> [= <-]].
    eapply linearized_read; [done|done|exact Hown|done|by repeat constructor|left|].
    rewrite E. cbn [fst snd run]. fold t1. by rewrite Er.
  - destruct l as [|[[n2 s2] s2'] l]; [done|]. destruct Hp as (p2 & Hp2 & Hp). injection Hp2 as <- <-.
    rewrite Hf in Hp. apply passes_ret in Hp as [-> [= ->]].
    eapply (linearized_read _ _ _ _ _ _ _ (n2, s2, s2)); [done|done|exact Hown|done|by repeat constructor|right; left|].
    rewrite E. cbn [fst snd run]. destruct (st_keys s2 !! k) as [v2|] eqn:E2.
    + destruct (decide (kind v2 = t1)) as [->|Hk].
      * rewrite Er. cbn [run]. by rewrite E2, Hf.
      * destruct Hne. by apply Hdiff.
    + rewrite E0. cbn [run]. by rewrite E2, Hf0, Hnone.
Qed.

Lemma c111_length cs s0 i c sched ts s r :
  room_for cs s0 -> cs !! i = Some c ->
  r_command (c_req c) = CLength \/ r_command (c_req c) = CKeys -> r_key_type (c_req c) = None ->
  reaches cs s0 sched ts s -> ts !! i = Some (PRet r) -> (forall out, r <> CErr EKeyTypeDifferent out) ->
  linearized i c sched (start cs s0) r.
Proof.
  intros Hroom Hc Hcmd Ht Hr Hi Hne. destruct (key (c_req c)) as [k|] eqn:Ek.
  2: { destruct (client_steps _ _ _ _ _ _ _ _ Hroom Hc Hr Hi) as (l & Hp & Hown & Hsteps & _).
    assert (E : exists r', command_prog (c_env c) (c_req c) (c_res c) = PRet r').
    { destruct Hcmd as [E|E]; unfold command_prog, cmd_length, cmd_keys; rewrite E, Ek; by eexists. }
    destruct E as [r' E]. rewrite E in Hp. apply passes_ret in Hp as [-> [= <-]]. by eapply linearized_at_once. }
  destruct Hcmd as [E|E].
  - eapply (linearized_two cs s0 i c sched ts s r k KTBytes (len_res (c_res c)) (len_cont (c_env c) (c_res c) k)); try done.
    + unfold command_prog, cmd_length, resolve_type. by rewrite E, Ek, Ht.
    + intros t. destruct (guarded_cases (c_env c) k) as [Hg|Hg].
      * left. destruct t; cbn; unfold read_variant, key_ref; rewrite ?Hg; by eexists.
      * destruct t; try (left; by eexists); right; (split; [by apply variant_prog|]);
          (split; [by apply variant_prog|]); (split; [done|]); by intros [].
  - eapply (linearized_two cs s0 i c sched ts s r k KTMap (keys_res (c_env c) (c_res c)) (keys_cont (c_env c) (c_res c) k)); try done.
    + unfold command_prog, cmd_keys, resolve_type. by rewrite E, Ek, Ht.
    + intros t. destruct (guarded_cases (c_env c) k) as [Hg|Hg].
      * left. destruct t; cbn; unfold read_variant, key_ref; rewrite ?Hg; by eexists.
      * destruct t; try (left; by eexists); right; (split; [by apply variant_prog|]);
          (split; [by apply variant_prog|]); (split; [done|]); by intros [].
Qed.

(** Alone, neither answers that the type is different. *)
Lemma c111_length_alone e s req res :
  room s -> r_command req = CLength \/ r_command req = CKeys -> r_key_type req = None ->
  forall out, (dispatch e s req res).2 <> CErr EKeyTypeDifferent out.
Proof.
  intros Hroom Hcmd Ht out. rewrite (proj1 (dispatch_cmd e s req res Hroom)).
  destruct Hcmd as [E|E]; unfold command_prog, cmd_length, cmd_keys; rewrite E;
    (destruct (key req) as [k|]; [|done]); unfold resolve_type; rewrite Ht; cbn [run].
  all: destruct (guarded_cases e k) as [Hg|Hg].
  all: destruct (st_keys s !! k) as [[]|] eqn:Ev; cbn [kind];
    unfold read_variant, key_ref; rewrite ?Hg; cbn [run]; rewrite ?Ev; try done.
  all: cbn [as_map run snd]; by destruct (write_list _ _ _).
Qed.

(** ** Append without a type *)

Lemma linearized_write cs s0 i c sched r l m :
  room_for cs s0 -> cs !! i = Some c -> Forall (own i sched (start cs s0)) l -> steps_of i sched (start cs s0) l ->
  NoDup ((fun m => m.1.1) <$> l) -> m ∈ l -> (forall m', m' ∈ l -> m' = m \/ m'.2 = m'.1.2) ->
  run (command_prog (c_env c) (c_req c) (c_res c)) m.1.2 = (m.2, r) ->
  linearized i c sched (start cs s0) r.
Proof.
  intros Hroom Hc Hown Hsteps Hnd Hm Hl E. pose proof (proj1 (Forall_forall _ _) Hown m Hm) as (H1 & Hrm & ts & H2 & H3).
  exists m.1.1, ts, m.1.2. split; [apply lookup_lt_Some in H1; lia|]. split; [done|]. split; [by right|].
  destruct (dispatch_cmd (c_env c) m.1.2 (c_req c) (c_res c) Hrm) as [D1 D2]. cbn zeta.
  rewrite D1, D2, E. cbn [fst snd]. split; [done|]. split; [done|].
  intros n x y Hn Hx Hy. destruct (Hsteps n x y Hn Hx Hy) as [H|[H Hno]].
  - destruct (decide (n = m.1.1)) as [->|Hne].
    + assert ((m.1.1, x.2, y.2) = m) as <-; [|done].
      clear -Hnd Hm H. induction l as [|a l IH]; [by apply elem_of_nil in H|].
      cbn in Hnd. apply NoDup_cons in Hnd as [Hni Hnd].
      apply elem_of_cons in H as [<-|H], Hm as [->|Hm]; [done| | |by apply IH].
      * destruct Hni. apply elem_of_list_fmap. by exists m.
      * destruct Hni. apply elem_of_list_fmap. eexists (_, _, _). split; [|exact H]. done.
    + destruct (Hl _ H) as [<-|H']; [done|]. cbn in H'. by rewrite H'.
  - rewrite decide_False; [done|]. intros ->. by apply (Hno m Hm).
Qed.

Definition app_cont (e : env) (a : arguments) (res k : bytes) (kt : key_type) : prog :=
  match kt with
  | KTBytes => append_bytes e a res k
  | KTList => append_list e a res k
  | KTString => append_string e a res k
  | _ => fail res EKeyTypeDifferent
  end.

Lemma c111_append cs s0 i c k t sched ts s r :
  room_for cs s0 -> cs !! i = Some c ->
  r_command (c_req c) = CAppend -> r_key_type (c_req c) = None -> arg (c_req c) 0 = Some k ->
  (forall n x, pool_run (take n sched) (start cs s0) = Some x -> there (Some t) k x.2) ->
  reaches cs s0 sched ts s -> ts !! i = Some (PRet r) ->
  linearized i c sched (start cs s0) r.
Proof.
  intros Hroom Hc Hcmd Ht Hk Hth Hr Hi.
  destruct (client_steps _ _ _ _ _ _ _ _ Hroom Hc Hr Hi) as (l & Hp & Hown & Hsteps & Hnd).
  assert (Hat : forall m, m ∈ l -> exists v, st_keys m.1.2 !! k = Some v /\ kind v = t).
  { intros m Hm. pose proof (proj1 (Forall_forall _ _) Hown m Hm) as (_ & _ & ts1 & R & _).
    destruct (Hth _ _ R) as (v & Hv & Hkd). exists v. split; [done|by apply Hkd]. }
  destruct (args_from (c_req c) 1) as [a|] eqn:Ea.
  2: { assert (E : command_prog (c_env c) (c_req c) (c_res c) = fail (c_res c) EArgumentRetrieval).
    { unfold command_prog, cmd_append. by rewrite Hcmd, Hk, Ea. }
    rewrite E in Hp. apply passes_ret in Hp as [-> [= ->]]. by eapply linearized_at_once. }
  assert (E : command_prog (c_env c) (c_req c) (c_res c) =
    PGet k (fun v => app_cont (c_env c) a (c_res c) k (match v with Some v => kind v | None => KTBytes end))).
  { unfold command_prog, cmd_append, resolve_type. by rewrite Hcmd, Hk, Ea, Ht. }
  rewrite E in Hp. destruct l as [|[[n1 s1] s1'] l]; [done|]. destruct Hp as (p1 & Hp1 & Hp). injection Hp1 as <- <-.
  destruct (Hat (n1, s1, s1)) as (v1 & Hv1 & Hk1); [left|]. cbn [fst snd] in Hv1. rewrite Hv1, Hk1 in Hp.
  assert (Hcont : (exists r, app_cont (c_env c) a (c_res c) k t = PRet r) \/
    exists u d, app_cont (c_env c) a (c_res c) k t = PKoi k d u PRet).
  { destruct (guarded_cases (c_env c) k) as [Hg|Hg].
    - left. destruct t; cbn; unfold append_bytes, append_list, append_string, key_or_insert_with; rewrite ?Hg; by eexists.
    - destruct t; cbn; unfold append_bytes, append_list, append_string, key_or_insert_with; rewrite ?Hg;
        first [left; by eexists|right; by eexists _, _]. }
  destruct Hcont as [[r' Er]|(u & d & Er)]; rewrite Er in Hp.
  - apply passes_ret in Hp as [-> [= <-]].
    eapply linearized_read; [done|done|exact Hown|done|by repeat constructor|left|].
    rewrite E. cbn [fst snd run]. rewrite Hv1, Hk1. by rewrite Er.
  - destruct l as [|[[n2 s2] s2'] l]; [done|]. destruct Hp as (p2 & Hp2 & Hp).
    destruct (Hat (n2, s2, s2')) as (v2 & Hv2 & Hk2); [right; left|]. cbn [fst snd] in Hv2.
    cbn in Hp2. rewrite Hv2 in Hp2. destruct (u v2) as [v' r2] eqn:Eu. injection Hp2 as <- <-.
    apply passes_ret in Hp as [-> [= ->]].
    eapply (linearized_write _ _ _ _ _ _ _ (n2, s2, _)); [done|done|exact Hown|done|done|right; left| |].
    + intros m' [->|[->|Hm]%elem_of_cons]%elem_of_cons; [by right|by left|by apply elem_of_nil in Hm].
    + rewrite E. cbn [fst snd run]. rewrite Hv2, Hk2, Er. cbn. rewrite Hv2. cbn. by rewrite Eu.
Qed.

(** ** Statistics *)

Lemma count_bound cs s0 sched ts s m :
  room_for cs s0 -> reaches cs s0 sched ts s -> (count s m <= count s0 m + lenN cs)%N.
Proof.
  intros Hroom Hr. destruct (c57 _ _ _ _ _ Hroom Hr) as (H1 & H2 & H3 & H4).
  assert (Hl : length ts = length cs).
  { destruct (conc_inv_sched cs s0 (fun _ _ _ => True) Hroom) with (sched := sched) (ts := ts) (s := s)
      as (xs & Hl & -> & _); try done. rewrite zip_with_length. lia. }
  assert (Hm : forall f, (how_many_at f ts <= lenN cs)%N).
  { intros f. unfold how_many_at, lenN. rewrite <-Hl. pose proof (filter_length (fun p => f p = true) ts). lia. }
  pose proof (Hm returned_ok). pose proof (Hm returned_err). destruct m; lia.
Qed.

Lemma c111_stats cs s0 i c l0 sched ts s r :
  (forall m, count s0 m + lenN cs < 2 ^ 63)%N -> env_ok (c_env c) ->
  cs !! i = Some c -> asks (c_req c) CStats None l0 ->
  reaches cs s0 sched ts s -> ts !! i = Some (PRet r) ->
  exists d : gmap bytes bytes, responds (c_env c) (c_res c) (VMap d) r /\
    forall m, m = MCommandsErrored \/ m = MCommandsSuccessful \/ m = MSessionsStarted ->
    exists s1, moment i sched (start cs s0) s1 /\
      (count s1 m <> 0%N -> d !! metric_name m = Some (i64_enc (Z.of_N (count s1 m)))) /\
      (forall b, d !! metric_name m = Some b -> b = i64_enc (Z.of_N (count s1 m))).
Proof.
  intros Hbound He Hc (Hcmd & Ht & _) Hr Hi.
  assert (Hroom : room_for cs s0) by (intros m; specialize (Hbound m); lia).
  destruct (client_steps _ _ _ _ _ _ _ _ Hroom Hc Hr Hi) as (l & Hp & Hown & _).
  assert (E : command_prog (c_env c) (c_req c) (c_res c) =
    stats_loop stats_counters ∅ (fun m => PRet (cres_of (write_map (c_env c) (c_res c) m)))).
  { unfold command_prog, cmd_stats. by rewrite Hcmd, Ht. }
  rewrite E in Hp. clear E.
  assert (Hlt : forall m0 m n, m0 ∈ l -> st_counters m0.1.2 !! m = Some n -> (Z.of_N n <? i64_half)%Z = true).
  { intros m0 m n H0 Hn. pose proof (proj1 (Forall_forall _ _) Hown m0 H0) as (_ & _ & ts1 & R & _).
    pose proof (count_bound _ _ _ _ _ m Hroom R) as Hb. specialize (Hbound m). assert (Hct : count m0.1.2 m = n) by (unfold count; by rewrite Hn).
    rewrite Hct in Hb. apply Z.ltb_lt. unfold i64_half. change (2 ^ 63)%N with 9223372036854775808%N in Hbound. lia. }
  cbn [stats_loop stats_counters] in Hp.
  destruct l as [|[[n1 s1] s1'] l]; [done|]. destruct Hp as (p1 & Hp1 & Hp). injection Hp1 as <- <-.
  destruct l as [|[[n2 s2] s2'] l].
  { cbn in Hp. destruct (st_counters s1 !! MCommandsErrored); [destruct (Z.of_N _ <? _)%Z|]; done. }
  destruct l as [|[[n3 s3] s3'] l].
  { cbn in Hp. destruct Hp as (p2 & Hp2 & Hp).
    destruct (st_counters s1 !! MCommandsErrored); [destruct (Z.of_N _ <? _)%Z|]; injection Hp2 as <- <-;
    (destruct (st_counters s2 !! MCommandsSuccessful); [destruct (Z.of_N _ <? _)%Z|]); done. }
  assert (Hl1 := Hlt (n1, s1, s1) MCommandsErrored). assert (Hl2 := Hlt (n2, s2, s2') MCommandsSuccessful).
  assert (Hl3 := Hlt (n3, s3, s3') MSessionsStarted). cbn [fst snd] in Hl1, Hl2, Hl3.
  assert (M1 : moment i sched (start cs s0) s1) by (apply (own_moment i sched _ (n1, s1, s1)); by apply (proj1 (Forall_forall _ _) Hown); left).
  assert (M2 : moment i sched (start cs s0) s2)
    by (apply (own_moment i sched _ (n2, s2, s2')); apply (proj1 (Forall_forall _ _) Hown); right; left).
  assert (M3 : moment i sched (start cs s0) s3)
    by (apply (own_moment i sched _ (n3, s3, s3')); apply (proj1 (Forall_forall _ _) Hown); right; right; left).
  set (put := fun (m : metric) (o : option N) (d : gmap bytes bytes) =>
    match o with Some n => <[metric_name m := i64_enc (Z.of_N n)]> d | None => d end).
  set (d := put MSessionsStarted (st_counters s3 !! MSessionsStarted)
    (put MCommandsSuccessful (st_counters s2 !! MCommandsSuccessful)
    (put MCommandsErrored (st_counters s1 !! MCommandsErrored) ∅))).
  assert (Hd : r = cres_of (write_map (c_env c) (c_res c) d)).
  { destruct Hp as (p2 & Hp2 & p3 & Hp3 & Hp). subst d put. cbv beta.
    destruct (st_counters s1 !! MCommandsErrored) as [a1|]; [rewrite (Hl1 a1 (elem_of_list_here _ _) eq_refl) in Hp2|];
    (injection Hp2 as <- <-);
    (destruct (st_counters s2 !! MCommandsSuccessful) as [a2|];
      [rewrite (Hl2 a2 (elem_of_list_further _ _ _ (elem_of_list_here _ _)) eq_refl) in Hp3|]);
    (injection Hp3 as <- <-);
    (destruct (st_counters s3 !! MSessionsStarted) as [a3|];
      [rewrite (Hl3 a3 (elem_of_list_further _ _ _ (elem_of_list_further _ _ _ (elem_of_list_here _ _))) eq_refl) in Hp|]);
    apply passes_ret in Hp as [_ [= ->]]; done. }
  exists d. split; [rewrite Hd; by apply (responds_copy _ _ (VMap d))|].
  assert (Hput : forall m o d, put m o d !! metric_name m = match o with Some n => Some (i64_enc (Z.of_N n)) | None => d !! metric_name m end).
  { intros m [n|] d'; cbn; [by rewrite lookup_insert|done]. }
  assert (Hne : forall m m' o d, metric_name m <> metric_name m' -> put m o d !! metric_name m' = d !! metric_name m').
  { intros m m' [n|] d' Hn; cbn; [by rewrite lookup_insert_ne|done]. }
  assert (N1 : metric_name MSessionsStarted <> metric_name MCommandsErrored) by (vm_compute; discriminate).
  assert (N2 : metric_name MSessionsStarted <> metric_name MCommandsSuccessful) by (vm_compute; discriminate).
  assert (N3 : metric_name MCommandsSuccessful <> metric_name MCommandsErrored) by (vm_compute; discriminate).
  assert (Hall : forall m s1 (o := st_counters s1 !! m) d0, d0 !! metric_name m = None ->
    (count s1 m <> 0%N -> put m o d0 !! metric_name m = Some (i64_enc (Z.of_N (count s1 m)))) /\
    (forall b, put m o d0 !! metric_name m = Some b -> b = i64_enc (Z.of_N (count s1 m)))).
  { intros m s4 o d0 Hd0. unfold o, count. rewrite Hput. destruct (st_counters s4 !! m) as [n|]; cbn [default].
    - split; [done|]. by intros b [= <-].
    - split; [done|]. rewrite Hd0. done. }
  intros m [->|[->| ->]].
  - exists s1. split; [done|]. unfold d. rewrite (Hne _ _ _ _ N1), (Hne _ _ _ _ N3). apply Hall. apply lookup_empty.
  - exists s2. split; [done|]. unfold d. rewrite (Hne _ _ _ _ N2). apply Hall. rewrite (Hne MCommandsErrored); [apply lookup_empty|done].
  - exists s3. split; [done|]. apply Hall. rewrite (Hne MCommandsSuccessful), (Hne MCommandsErrored); [apply lookup_empty|done|done].
Qed.

Lemma stats_asks : asks (a_request CStats None []) CStats None [].
Proof.
  split; [done|]. split; [done|]. split; [vm_compute; reflexivity|]. intros i.
  unfold arg. change (r_positions (a_request CStats None [])) with (@nil N). unfold get_at.
  destruct (i <? lenN [])%N; by rewrite ?lookup_nil.
Qed.
