(** Clients that add to a key while others set it, delete it or rename it away: proofs (C121). *)
From Verif Require Import Bytes BytesFacts Utf8 Float64 Value CommandId Request Response
  Metrics Prog Commands EngineSpec WireSpec RequestSpec RequestFacts HistorySpec ProgFacts
  CommandFacts SafeFacts EngineFacts EngineProps HistoryFacts Locks LockSpec LockScripts LockScriptSpec
  Concurrent ConcSpec ConcFacts ConcProps ConcExact
  Scripts LinSpec LinFacts KeyLinSpec KeyLin KeyLinFacts IsoSpec IsoFacts ScriptInv LockScriptFacts
  SetRaceSpec SetRaceFacts RaceRule TakeRaceSpec TakeRaceFacts ForwardSpec ForwardFacts StartRaceSpec StartRace OnceSpec.
From stdpp Require Import gmap list.
From Coq Require Import NArith ZArith Lia.
From Coq Require Import ZifyBool ZifyNat ZifyN.

Section once.
  Context {A : Type} (k : bytes) (scripts : list (list call)) (s0 : store)
    (amount : call -> A -> Prop) (zero : value) (sum : value -> list A -> value)
    (okb : value -> Prop) (okd : A -> Prop) (ty : key_type).
  Notation nn := (nat * nat)%type.
  Notation adds := (adds_there scripts amount).
  Notation puts := (puts_there scripts k).
  Notation dels := (dels_there scripts k).
  Notation sends := (sends_there scripts k).
  Notation reads := (reads_there scripts k ty).
  Notation first := (st_keys s0 !! k).
  Notation clr := (clears puts dels).
  Notation mclr := (may_clear puts dels sends).
  Notation bof := (base_of puts dels sends first zero).
  Notation aup := (added_up adds puts dels).
  Notation sees := (may_see adds puts dels sends first zero).
  Notation wipes := (may_wipe adds puts dels sends first).

  (** What an update does. *)
  Definition upd_adds (c : call) (u : value -> value * cres) : Prop :=
    forall d v ds, amount c d -> okb v -> length ds < length (concat scripts) -> Forall okd ds ->
    exists r, u (sum v ds) = (sum v (ds ++ [d]), r) /\ responds (c_env c) (c_res c) (sum v (ds ++ [d])) r.
  Definition upd_sets (v : value) (u : value -> value * cres) : Prop :=
    forall w ds, okb w -> Forall okd ds -> (u (sum w ds)).1 = v \/ (u (sum w ds)).1 = sum w ds.

  Definition get_ok (c : call) (f : option value -> cres) : Prop :=
    f None = CErr EKeyNonexistent (c_res c) /\
    forall v ds, okb v -> length ds <= length (concat scripts) -> Forall okd ds ->
      responds (c_env c) (c_res c) (sum v ds) (f (Some (sum v ds))).

  Hypothesis Hsum0 : forall v, okb v -> sum v [] = v.
  Hypothesis Hzero : okb zero.
  Hypothesis Hfirst : forall v, first = Some v -> okb v.
  Hypothesis Hprog : forall c d, issued scripts c -> amount c d ->
    exists u, command_prog (c_env c) (c_req c) (c_res c) = PKoi k zero u PRet /\ upd_adds c u.
  Hypothesis Hset : forall c v, issued scripts c -> sets_to k c v -> okb v /\
    exists f u, command_prog (c_env c) (c_req c) (c_res c) = PRemove k f /\
      (forall o, f o = PKoi k zero u PRet) /\ upd_sets v u.
  Hypothesis Hget : forall c, issued scripts c -> gets c k ty ->
    exists g f, command_prog (c_env c) (c_req c) (c_res c) = PGet k g /\ (forall o, g o = PRet (f o)) /\ get_ok c f.
  Hypothesis Hokd : forall c d, issued scripts c -> amount c d -> okd d.
  Hypothesis Hwr : forall c d, amount c d -> may_write (c_req c) k.
  Hypothesis Hdisj : forall c d, amount c d -> ~ takes k c /\ forall v, ~ sets_to k c v.
  Hypothesis Hall : forall c, issued scripts c ->
    (exists d, amount c d) \/ takes k c \/ (exists v, sets_to k c v) \/ ~ may_write (c_req c) k.

  Definition past (N : nn -> option tstate) (t : nn) : Prop :=
    exists x, N t = Some x /\ forall f, x <> TRun (PRemove k f).
  Definition here (N : nn -> option tstate) (b : nn) : Prop := is_Some (N b).
  Definition nothing (bf : nn -> nn -> Prop) (N : nn -> option tstate) (b : nn) : Prop :=
    found_nothing adds puts dels sends first bf (here N) b.
  Definition wiped (bf : nn -> nn -> Prop) (N : nn -> option tstate) (a : nn) : Prop := exists b, wipes bf (here N) a b.
  Definition heard (bf : nn -> nn -> Prop) (N : nn -> option tstate) (a : nn) (c : call) (r : cres) : Prop :=
    exists v l es, sees bf (here N) a v (l ++ [a]) es /\ responds (c_env c) (c_res c) (sum v es) r.
  Definition glance (bf : nn -> nn -> Prop) (N : nn -> option tstate) (a : nn) (c : call) (x : tstate) : Prop :=
    (exists g f, x = TRun (PGet k g) /\ (forall o, g o = PRet (f o)) /\ get_ok c f) \/
    exists r, ret x r /\
      ((exists v l es, sees bf (here N) a v l es /\ responds (c_env c) (c_res c) (sum v es) r) \/
       (nothing bf N a /\ r = CErr EKeyNonexistent (c_res c))).

  Inductive at_stage (bf : nn -> nn -> Prop) (N : nn -> option tstate) (out : list nn) (a : nn) (c : call) : tstate -> Prop :=
  | AWait d u : amount c d -> upd_adds c u -> at_stage bf N out a c (TRun (PKoi k zero u PRet))
  | AInsert d u : amount c d -> upd_adds c u -> nothing bf N a -> at_stage bf N out a c (TRun (PKoiIns k zero u PRet))
  | ADone d x r : amount c d -> ret x r -> heard bf N a c r -> (a ∉ out -> wiped bf N a) -> at_stage bf N out a c x
  | ADel : deletes c k -> at_stage bf N out a c (TRun (dl k c))
  | ARename b x : b <> k -> sent_to k b c -> x = TRun (rn0 k c b) \/ x = TRun (rn1 k c b) \/ x = TRun (rn2 k c b) ->
      at_stage bf N out a c x
  | APut b v r : b <> k -> sent_to k b c -> at_stage bf N out a c (TRun (PInsert b v (PRet r)))
  | ATook x r : takes k c -> ret x r -> at_stage bf N out a c x
  | ASet v f u : sets_to k c v -> (forall o, f o = PKoi k zero u PRet) -> upd_sets v u ->
      at_stage bf N out a c (TRun (PRemove k f))
  | ASetWait v u : sets_to k c v -> upd_sets v u -> at_stage bf N out a c (TRun (PKoi k zero u PRet))
  | ASetInsert v u : sets_to k c v -> upd_sets v u -> at_stage bf N out a c (TRun (PKoiIns k zero u PRet))
  | ASetDone v x r : sets_to k c v -> ret x r -> at_stage bf N out a c x.

  Definition missing (bf : nn -> nn -> Prop) (N : nn -> option tstate) : Prop :=
    (first = None /\ forall a d x r, adds a d -> N a = Some x -> ~ ret x r) \/
    exists t, mclr t /\ is_Some (N t) /\ forall a d x r, adds a d -> bf t a -> N a = Some x -> ~ ret x r.

  Definition oinv_at (base : value) (out : list nn) (ds : list A) (bf : nn -> nn -> Prop) (N : nn -> option tstate)
    (s : store) : Prop :=
    bof bf (fun b => is_Some (N b)) (past N) base /\
    aup bf (past N) out ds /\
    (forall a, a ∈ out -> exists x r, N a = Some x /\ ret x r) /\
    (st_keys s !! k = Some (sum base ds) \/ (st_keys s !! k = None /\ out = [] /\ missing bf N)) /\
    (forall a c x, call_at scripts a = Some c -> may_write (c_req c) k -> N a = Some x -> at_stage bf N out a c x) /\
    (forall i a c x r, out !! i = Some a -> call_at scripts a = Some c -> N a = Some x -> ret x r ->
       responds (c_env c) (c_res c) (sum base (take (S i) ds)) r) /\
    (forall a b, bf a b -> exists r, N a = Some (TDone r)) /\
    (forall a c x, call_at scripts a = Some c -> gets c k ty -> N a = Some x -> glance bf N a c x).
  Definition oinv (bf : nn -> nn -> Prop) (N : nn -> option tstate) (s : store) : Prop :=
    exists base out ds, oinv_at base out ds bf N s.

  (** ** What stays true later *)

  Lemma base_of_mono (bf bf' : nn -> nn -> Prop) (some some' pst pst' : nn -> Prop) v :
    (forall b, some b -> some' b) -> (forall t, clr t -> pst' t -> pst t) ->
    (forall b t, clr t -> pst' t -> bf' b t -> bf b t) ->
    bof bf some pst v -> bof bf' some' pst' v.
  Proof.
    intros Hs Hp Hb [(-> & H)|[(H1 & H2)|(b & H1 & H2 & H3)]].
    - left. split; [done|]. destruct H as [?|(t & ? & ?)]; [by left|right]. exists t. auto.
    - right. left. split; [done|]. intros t Ht Hpt. by apply (H2 t Ht), Hp.
    - right. right. exists b. split_and!; [done|auto|]. intros t Ht Hpt Hbf. eapply (H3 t); auto.
  Qed.

  Lemma added_up_mono (bf bf' : nn -> nn -> Prop) (pst pst' : nn -> Prop) l ds :
    (forall t, clr t -> pst' t -> pst t) -> (forall b t, clr t -> pst' t -> bf' b t -> bf b t) ->
    (forall a b, b ∈ l -> bf' a b -> bf a b) ->
    aup bf pst l ds -> aup bf' pst' l ds.
  Proof.
    intros Hp Hb Ho (H1 & H2 & H3 & H4). split_and!; try done.
    - intros a t Ha Ht Hpt Hbf. eapply (H3 a t); auto.
    - intros i j a b Hi Hj Hab. apply (H4 _ _ _ _ Hi Hj), Ho; [by eapply elem_of_list_lookup_2|done].
  Qed.

  Definition later (bf bf' : nn -> nn -> Prop) (N N' : nn -> option tstate) : Prop :=
    (forall b, is_Some (N b) -> is_Some (N' b)) /\ (forall a b, is_Some (N b) -> bf' a b -> bf a b) /\
    (forall a b, bf a b -> is_Some (N a)).

  Lemma nothing_later bf bf' N N' b : later bf bf' N N' -> is_Some (N b) -> nothing bf N b -> nothing bf' N' b.
  Proof.
    intros (L1 & L2 & L3) Hb [(H1 & H2)|(t & H1 & H2 & H3 & H4)].
    - left. split; [done|]. intros a d Ha Hbf. eapply H2; [done|]. by apply L2.
    - right. exists t. split_and!; [done|by apply L1|intros ?; by apply H3, L2|]. intros a d Ha Hta Hab.
      apply (L2 a b Hb) in Hab. eapply H4; [done| |done]. apply L2; [by eapply L3|done].
  Qed.

  Lemma wipes_later bf bf' N N' a b : later bf bf' N N' -> is_Some (N a) -> wipes bf (here N) a b -> wipes bf' (here N') a b.
  Proof.
    intros L Ha (H1 & H2 & H3 & H4). split_and!; [done|by apply L| |].
    - intros Hbf. by apply H3, L.
    - destruct H4 as [?|[? ?]]; [by left|right]. split; [done|]. by eapply nothing_later.
  Qed.

  Lemma wiped_later bf bf' N N' a : later bf bf' N N' -> is_Some (N a) -> wiped bf N a -> wiped bf' N' a.
  Proof. intros L Ha (b & H). exists b. by eapply wipes_later. Qed.

  Lemma sees_later bf bf' N N' a v l es : later bf bf' N N' -> is_Some (N a) -> sees bf (here N) a v l es ->
    sees bf' (here N') a v l es.
  Proof.
    intros L Ha (H1 & H2 & H3 & H4). pose proof L as (L1 & L2 & L3).
    assert (Hp : forall t, clr t -> bf' t a -> bf t a) by (intros t _ ?; by apply L2).
    assert (Hq : forall b t, clr t -> bf' t a -> bf' b t -> bf b t).
    { intros b t _ Hta Hbt. apply L2; [|done]. by eapply L3, L2. }
    split_and!.
    - eapply (base_of_mono bf bf' _ _ (fun t => bf t a) (fun t => bf' t a)); [|exact Hp|exact Hq|exact H1].
      intros b [Hs Hn]. split; [by apply L1|]. intros ?. by apply Hn, L2.
    - apply (added_up_mono bf bf' (fun t => bf t a) (fun t => bf' t a)); try done.
      intros b b' Hb'. apply L2. by apply H3.
    - intros b Hb. destruct (H3 b Hb) as [Hs Hn]. split; [by apply L1|]. intros ?. by apply Hn, L2.
    - intros b d Hd Hb Hn. apply L2 in Hb; [|done]. destruct (H4 b d Hd Hb Hn) as (w & Hw & Hnw). exists w.
      split; [eapply wipes_later; [done|by eapply L3|done]|]. intros Hb'. apply Hnw, L2; [|done]. apply Hw.
  Qed.

  Lemma heard_later bf bf' N N' a c r : later bf bf' N N' -> is_Some (N a) -> heard bf N a c r -> heard bf' N' a c r.
  Proof. intros L Ha (v & l & es & H1 & H2). exists v, l, es. split; [by eapply sees_later|done]. Qed.

  Lemma glance_later bf bf' N N' a c x : later bf bf' N N' -> is_Some (N a) -> glance bf N a c x -> glance bf' N' a c x.
  Proof.
    intros L Ha [?|(r & Hr & H)]; [by left|right]. exists r. split; [done|]. destruct H as [(v & l & es & H1 & H2)|[H ->]].
    - left. exists v, l, es. split; [by eapply sees_later|done].
    - right. split; [by eapply nothing_later|done].
  Qed.

  Lemma stage_later bf bf' N N' (out out' : list nn) a c x : later bf bf' N N' -> is_Some (N a) ->
    (forall d r, amount c d -> ret x r -> a ∉ out' -> a ∉ out \/ wiped bf' N' a) ->
    at_stage bf N out a c x -> at_stage bf' N' out' a c x.
  Proof.
    intros L Ha Hw H. revert Hw.
    destruct H as [d u ? ?|d u ? ? ?|d x' r Hd Hr Hh Hl|?|b x' ? ? ?|b v r ? ?|x' r ? ?|v f u ? ? ?|v u ? ?|v u ? ?|v x' r ? ?]; intros Hw.
    - by eapply AWait.
    - eapply AInsert; [done|done|]. by eapply nothing_later.
    - eapply ADone; [done|done|by eapply heard_later|]. intros Hn. destruct (Hw d r Hd Hr Hn) as [?|?]; [|done].
      eapply wiped_later; [done|done|auto].
    - by apply ADel.
    - by eapply ARename.
    - by eapply APut.
    - by eapply ATook.
    - by eapply ASet.
    - by eapply ASetWait.
    - by eapply ASetInsert.
    - by eapply ASetDone.
  Qed.

  Lemma oinv_ext bf N N' s : (forall ij, N ij = N' ij) -> oinv bf N s -> oinv bf N' s.
  Proof.
    intros E (base & out & ds & H1 & H2 & H3 & H4 & H5 & H6 & H7 & H8). exists base, out, ds.
    assert (L : later bf bf N N').
    { split_and!; [|done|]. - intros b. by rewrite E. - intros a b Hb. destruct (H7 a b Hb). eauto. }
    assert (Hp : forall t, clr t -> past N' t -> past N t).
    { intros t _ (x & Hx & ?). exists x. by rewrite E. }
    split_and!; try done.
    - eapply base_of_mono; [|exact Hp|done|exact H1]. intros b. cbn. by rewrite E.
    - by eapply added_up_mono.
    - intros a Ha. destruct (H3 a Ha) as (x & r & ? & ?). exists x, r. by rewrite <-E.
    - destruct H4 as [?|(A1 & A2 & A3)]; [by left|right]. split_and!; try done. destruct A3 as [[B1 B2]|(t & B1 & B2 & B3)].
      + left. split; [done|]. intros a d x r. rewrite <-E. eauto.
      + right. exists t. split_and!; [done|by rewrite <-E|]. intros a d x r. rewrite <-E. eauto.
    - intros a c x Hc Hw. rewrite <-E. intros Hx. eapply stage_later; [exact L|by rewrite Hx| |by eapply H5]. auto.
    - intros i a c x r. rewrite <-E. eauto.
    - intros a b. rewrite <-E. eauto.
    - intros a c x Hc Hg. rewrite <-E. intros Hx. eapply glance_later; [exact L|by rewrite Hx|by eapply H8].
  Qed.

  Lemma oinv_more (bf bf' : nn -> nn -> Prop) N s :
    (forall a b, bf' a b -> bf a b \/ ((exists r, N a = Some (TDone r)) /\ N b = None)) ->
    oinv bf N s -> oinv bf' N s.
  Proof.
    intros Hb (base & out & ds & H1 & H2 & H3 & H4 & H5 & H6 & H7 & H8). exists base, out, ds.
    assert (Hold : forall a b x, N b = Some x -> bf' a b -> bf a b).
    { intros a b x Hx H. destruct (Hb _ _ H) as [?|[_ ?]]; [done|congruence]. }
    assert (L : later bf bf' N N).
    { split_and!; [done|intros a b [x Hx]; by eapply Hold|]. intros a b Hab. destruct (H7 a b Hab). eauto. }
    assert (Hq : forall b t, clr t -> past N t -> bf' b t -> bf b t).
    { intros b t _ (x & Hx & _). by eapply Hold. }
    split_and!; try done.
    - by apply (base_of_mono bf bf' (fun b => is_Some (N b)) (fun b => is_Some (N b)) (past N) (past N)).
    - eapply added_up_mono; [|exact Hq| |exact H2]; [done|].
      intros a b Hb'. destruct (H3 b Hb') as (x & _ & Hx & _). by eapply Hold.
    - destruct H4 as [?|(A1 & A2 & A3)]; [by left|right]. split_and!; try done.
      destruct A3 as [?|(t & B1 & B2 & B3)]; [by left|right].
      exists t. split_and!; try done. intros a d x r Ha Hta Hx. eapply B3; [done| |done]. by eapply Hold.
    - intros a c x Hc Hw Hx. eapply stage_later; [exact L|by rewrite Hx| |by eapply H5]. auto.
    - intros a b Hab. destruct (Hb a b Hab) as [H|[H _]]; [by eapply H7|done].
    - intros a c x Hc Hg Hx. eapply glance_later; [exact L|by rewrite Hx|by eapply H8].
  Qed.

  (** ** Steps *)

  Lemma adds_here a c d : call_at scripts a = Some c -> adds a d -> amount c d.
  Proof. intros Hc (c' & Hc' & Hd). by assert (c' = c) as -> by congruence. Qed.

  Lemma later_upd (bf : nn -> nn -> Prop) (N : nn -> option tstate) (ij : nn) (x' : tstate) : (forall a b, bf a b -> exists r, N a = Some (TDone r)) -> later bf bf N (upd N ij x').
  Proof.
    intros H7. split_and!; [|done|].
    - intros b. destruct (decide (b = ij)) as [->|Hne]; [rewrite upd_same; eauto|by rewrite upd_other].
    - intros a b Hab. destruct (H7 a b Hab). eauto.
  Qed.

  Lemma clears_at t c : call_at scripts t = Some c -> clr t -> deletes c k \/ exists v, sets_to k c v.
  Proof.
    intros Hc [(c' & Hc' & H)|(v & c' & Hc' & H)]; assert (c' = c) as -> by congruence; eauto.
  Qed.

  (** A step that does not add and takes nothing away. *)
  Lemma oinv_keep base out ds bf N s s' ij c x' : oinv_at base out ds bf N s -> call_at scripts ij = Some c ->
    st_keys s' !! k = st_keys s !! k ->
    (forall r, N ij = Some (TDone r) -> exists r', x' = TDone r') ->
    (clr ij -> past N ij \/ exists f, x' = TRun (PRemove k f)) ->
    (forall d, amount c d -> forall r, ret x' r <-> exists x, N ij = Some x /\ ret x r) ->
    (may_write (c_req c) k -> at_stage bf (upd N ij x') out ij c x') ->
    (gets c k ty -> glance bf (upd N ij x') ij c x') ->
    oinv_at base out ds bf (upd N ij x') s'.
  Proof.
    intros (H1 & H2 & H3 & H4 & H5 & H6 & H7 & H8) Hc Ek Hd Hclr Hret Hst Hgl.
    assert (Hone : forall c', call_at scripts ij = Some c' -> c' = c) by congruence.
    pose proof H2 as (H2a & H2b & H2c & H2d).
    assert (Hout : forall a, a ∈ out -> exists d, adds a d).
    { intros a [i Hi]%elem_of_list_lookup. destruct (Forall2_lookup_l _ _ _ _ _ H2b Hi) as (d & _ & ?). eauto. }
    assert (L : later bf bf N (upd N ij x')) by (by apply later_upd).
    assert (Hp : forall t, clr t -> past (upd N ij x') t -> past N t).
    { intros t Ht (y & Hy & Hny). destruct (decide (t = ij)) as [->|Hne].
      - rewrite upd_same in Hy. injection Hy as <-. destruct (Hclr Ht) as [?|[f ->]]; [done|]. by destruct (Hny f).
      - rewrite upd_other in Hy by done. by exists y. }
    assert (Hnr : forall a d x r, adds a d -> upd N ij x' a = Some x -> ret x r -> exists y, N a = Some y /\ ret y r).
    { intros a d x r Ha. destruct (decide (a = ij)) as [->|Hne].
      - rewrite upd_same. intros [= <-] Hr. eapply Hret in Hr; [done|]. by eapply adds_here.
      - rewrite upd_other by done. eauto. }
    split_and!; try done.
    - apply (base_of_mono bf bf (fun b => is_Some (N b)) (fun b => is_Some (upd N ij x' b)) (past N) _); [apply L|done..].
    - by eapply (added_up_mono bf bf (past N)).
    - intros a Ha. destruct (H3 a Ha) as (x & r & Hxa & Hr). destruct (decide (a = ij)) as [->|Hne].
      + destruct (Hout _ Ha) as [d Hda]. exists x', r. rewrite upd_same. split; [done|]. eapply Hret; [by eapply adds_here|eauto].
      + exists x, r. by rewrite upd_other.
    - rewrite Ek. destruct H4 as [?|(A1 & A2 & A3)]; [by left|right]. split_and!; try done.
      destruct A3 as [[B1 B2]|(t & B1 & B2 & B3)].
      + left. split; [done|]. intros a d x r Ha Hx Hr. destruct (Hnr _ _ _ _ Ha Hx Hr) as (y & Hy & Hr'). by eapply B2.
      + right. exists t. split_and!; [done|by apply L|]. intros a d x r Ha Hta Hx Hr.
        destruct (Hnr _ _ _ _ Ha Hx Hr) as (y & Hy & Hr'). by eapply B3.
    - intros a c' x Hc' Hw. destruct (decide (a = ij)) as [->|Hne].
      + rewrite upd_same. intros [= <-]. apply Hone in Hc' as ->. by apply Hst.
      + rewrite upd_other by done. intros Hxa. eapply stage_later; [exact L|by rewrite Hxa| |by eapply H5]. auto.
    - intros i a c' x r Hi Hc' Hx Hr. destruct (Hout a) as [d Hda]; [by eapply elem_of_list_lookup_2|].
      destruct (Hnr _ _ _ _ Hda Hx Hr) as (y & Hy & Hr'). by eapply H6.
    - intros a b Hab. destruct (H7 a b Hab) as [r Hr]. destruct (decide (a = ij)) as [->|Hne].
      + rewrite upd_same. destruct (Hd _ Hr) as [r' ->]. eauto.
      + rewrite upd_other by done. eauto.
    - intros a c' x Hc' Hg. destruct (decide (a = ij)) as [->|Hne].
      + rewrite upd_same. intros [= <-]. apply Hone in Hc' as ->. by apply Hgl.
      + rewrite upd_other by done. intros Hxa. eapply glance_later; [exact L|by rewrite Hxa|by eapply H8].
  Qed.

  Lemma base_ok bf some pst v : bof bf some pst v -> okb v.
  Proof.
    intros [(-> & _)|[(H & _)|(b & (c & Hc & Hv) & _)]]; [done|by apply Hfirst|]. eapply Hset; [|done]. by exists b.
  Qed.

  Lemma sum_okd (out : list nn) ds : Forall2 adds out ds -> Forall okd ds.
  Proof.
    induction 1 as [|a d out ds (c & Hc & Hd) _ IH]; constructor; [|done]. eapply Hokd; [|done]. by exists a.
  Qed.

  Lemma gets_not_writes c : gets c k ty -> ~ may_write (c_req c) k.
  Proof. intros (kt & l & Hq & _). eapply not_may_write; [exact Hq|done]. Qed.

  Lemma outs_length (out : list nn) ds : Forall2 adds out ds -> NoDup out -> length out <= length (concat scripts).
  Proof.
    intros H Hn. rewrite <-(all_calls_length scripts). apply submseteq_length, NoDup_submseteq; [done|].
    intros b [i Hi]%elem_of_list_lookup.
    destruct (Forall2_lookup_l _ _ _ _ _ H Hi) as (d' & _ & c' & Hc' & _). by eapply all_calls_in.
  Qed.

  (** What a call that is under way would see. *)
  Lemma sees_now base out ds bf N s ij q : oinv_at base out ds bf N s -> N ij = Some (TRun q) ->
    sees bf (here N) ij base out ds.
  Proof.
    intros (H1 & H2 & H3 & H4 & H5 & H6 & H7 & H8) Hn. pose proof H2 as (H2a & H2b & H2c & H2d).
    assert (Hnb : forall t, ~ bf ij t) by (intros t Hb; destruct (H7 _ _ Hb); congruence).
    assert (Hpb : forall t, clr t -> bf t ij -> past N t).
    { intros t _ Hb. destruct (H7 _ _ Hb) as [r' Hr']. eexists. split; [done|]. done. }
    split_and!.
    - eapply (base_of_mono bf bf (fun b => is_Some (N b)) _ (past N)); [|exact Hpb|done|done].
      intros b Hb. split; [done|apply Hnb].
    - eapply (added_up_mono bf bf (past N)); [exact Hpb|done|done|done].
    - intros b Hb. destruct (H3 b Hb) as (x & _ & Hx & _). split; [|apply Hnb]. unfold here. by rewrite Hx.
    - intros b d Hd Hb Hno. destruct (H7 _ _ Hb) as [r Hr]. pose proof Hd as (c & Hc & Ha).
      pose proof (H5 b c _ Hc (Hwr c d Ha) Hr) as Hst. remember (TDone r) as y eqn:Ey.
      destruct Hst as [| |d' y r' Hd' Hr' Hh Hl| |b' y Hb' Hs Hx'| |y r' Ht _| | | |v y r' Hv _]; try done.
      + destruct (Hl Hno) as (w & Hw). exists w. split; [done|apply Hnb].
      + subst y. by destruct Hx' as [?|[?|?]].
      + by destruct (proj1 (Hdisj c d Ha)).
      + by destruct (proj2 (Hdisj c d Ha) v).
  Qed.

  Lemma missing_nothing (bf : nn -> nn -> Prop) (N : nn -> option tstate) ij q : (forall a b, bf a b -> exists r, N a = Some (TDone r)) -> N ij = Some (TRun q) ->
    missing bf N -> nothing bf N ij.
  Proof.
    intros H7 Hn [[B1 B2]|(t & B1 & B2 & B3)].
    - left. split; [done|]. intros a e Ha Hb. destruct (H7 _ _ Hb) as [r Hr]. eapply B2; [done|done|by right].
    - right. exists t. split_and!; [done|done| |].
      + intros Hb. destruct (H7 _ _ Hb). congruence.
      + intros a e Ha Hta Hb. destruct (H7 _ _ Hb) as [r Hr]. eapply B3; [done|done|done|by right].
  Qed.

  (** The step that adds. *)
  Lemma oinv_add base out ds bf N s s' ij c d u : oinv_at base out ds bf N s -> call_at scripts ij = Some c ->
    amount c d -> N ij = Some (TRun (PKoi k zero u PRet)) -> upd_adds c u ->
    st_keys s !! k = Some (sum base ds) -> st_keys s' = <[k := (u (sum base ds)).1]> (st_keys s) ->
    oinv_at base (out ++ [ij]) (ds ++ [d]) bf (upd N ij (TRun (PRet (u (sum base ds)).2))) s'.
  Proof.
    intros Hinv Hc Hd Hn Hu Hk Es. pose proof (sees_now _ _ _ _ _ _ _ _ Hinv Hn) as Hsee.
    destruct Hinv as (H1 & H2 & H3 & H4 & H5 & H6 & H7 & H8).
    assert (Hone : forall c', call_at scripts ij = Some c' -> c' = c) by congruence.
    pose proof H2 as (H2a & H2b & H2c & H2d).
    assert (Hadd : adds ij d) by (by exists c).
    assert (Hnot : ij ∉ out).
    { intros Hin. destruct (H3 _ Hin) as (x & r & Hx & Hr). rewrite Hn in Hx. injection Hx as <-.
      by destruct Hr. }
    assert (Hnb : forall t, ~ bf ij t) by (intros t Hb; destruct (H7 _ _ Hb); congruence).
    assert (Hnd : NoDup (out ++ [ij])).
    { apply NoDup_app. split_and!; [done| |apply NoDup_singleton]. intros a Ha ->%elem_of_list_singleton. done. }
    assert (H2' : Forall2 adds (out ++ [ij]) (ds ++ [d])) by (apply Forall2_app; [done|by constructor]).
    destruct (Hu d base ds Hd) as (r & Er & Hr); [by eapply base_ok|by eapply out_length|by eapply sum_okd|].
    rewrite Er in Es. rewrite Er. cbn [fst snd] in *.
    set (x' := TRun (PRet r)).
    assert (L : later bf bf N (upd N ij x')) by (by apply later_upd).
    assert (Hlen : length out = length ds) by (by eapply Forall2_length).
    assert (Hncl : ~ clr ij).
    { intros [Hx|[v Hx]]%(clears_at _ _ Hc); [apply (Hdisj c d Hd); by left|by eapply (Hdisj c d Hd)]. }
    assert (Hp : forall t, clr t -> past (upd N ij x') t -> past N t).
    { intros t Ht (y & Hy & Hny). destruct (decide (t = ij)) as [->|Hne]; [done|].
      rewrite upd_other in Hy by done. by exists y. }
    assert (Hup : forall pst : nn -> Prop, aup bf pst out ds -> aup bf pst (out ++ [ij]) (ds ++ [d])).
    { intros pst (_ & _ & A3 & A4). split_and!; [done|done| |].
      - intros a t [Ha|Ha]%elem_of_app Ht Hb; [by apply (A3 a t)|]. apply elem_of_list_singleton in Ha as ->. apply Hnb.
      - intros i j a b Hi Hj Hab. destruct (H7 a b Hab) as [ra Hra].
        apply lookup_app_Some in Hi as [Hi|[Hge Hi]].
        2: { destruct (i - length out) eqn:E; cbn in Hi; [|done]. assert (ij = a) as <- by congruence. congruence. }
        apply lookup_app_Some in Hj as [Hj|[Hge Hj]]; [by eapply A4|]. apply lookup_lt_Some in Hi. lia. }
    assert (Hheard : heard bf (upd N ij x') ij c r).
    { exists base, out, (ds ++ [d]). split; [|done]. eapply sees_later; [exact L|by rewrite Hn|].
      destruct Hsee as (S1 & S2 & S3 & S4). split_and!; [done|by apply Hup| |].
      - intros b [Hb|Hb]%elem_of_app; [by apply S3|]. apply elem_of_list_singleton in Hb as ->.
        split; [|apply Hnb]. unfold here. by rewrite Hn.
      - intros b e He Hb Hno. apply (S4 b e); [done|done|set_solver]. }
    split_and!; try done.
    - apply (base_of_mono bf bf (fun b => is_Some (N b)) (fun b => is_Some (upd N ij x' b)) (past N) _); [apply L|done..].
    - eapply (added_up_mono bf bf (past N)); [exact Hp|done|done|]. by apply Hup.
    - intros a [Ha|Ha]%elem_of_app.
      + destruct (decide (a = ij)) as [->|Hne]; [done|]. rewrite upd_other by done. by apply H3.
      + apply elem_of_list_singleton in Ha as ->. exists x', r. rewrite upd_same. split; [done|by left].
    - left. by rewrite Es, lookup_insert.
    - intros a c' x Hc' Hw. destruct (decide (a = ij)) as [->|Hne].
      + rewrite upd_same. intros [= <-]. apply Hone in Hc' as ->. eapply ADone; [done|by left|done|].
        intros Hna. destruct Hna. set_solver.
      + rewrite upd_other by done. intros Hx. eapply stage_later; [exact L|by rewrite Hx| |by eapply H5].
        intros _ _ _ _ Hna. left. set_solver.
    - intros i a c' x r' Hi Hc'. destruct (decide (a = ij)) as [->|Hne].
      + rewrite upd_same. intros [= <-] Hr'. apply Hone in Hc' as ->.
        assert (r' = r) as -> by (eapply ret_one; [|done]; by left).
        assert (i = length out) as ->.
        { eapply NoDup_lookup; [exact Hnd|done|]. rewrite lookup_app_r by lia. by rewrite Nat.sub_diag. }
        rewrite take_ge by (rewrite app_length; cbn; lia). done.
      + rewrite upd_other by done. intros Hx Hr'.
        apply lookup_app_Some in Hi as [Hi|[Hge Hi]].
        * apply lookup_lt_Some in Hi as Hlt. rewrite take_app_le by lia. by eapply H6.
        * destruct (i - length out) eqn:E; cbn in Hi; [congruence|done].
    - intros a b Hab. destruct (H7 a b Hab) as [r' Hr']. destruct (decide (a = ij)) as [->|Hne]; [congruence|].
      rewrite upd_other by done. eauto.
    - intros a c' x Hc' Hg. destruct (decide (a = ij)) as [->|Hne].
      + apply Hone in Hc' as ->. exfalso. eapply gets_not_writes; [done|by eapply Hwr].
      + rewrite upd_other by done. intros Hxa. eapply glance_later; [exact L|by rewrite Hxa|by eapply H8].
  Qed.

  (** A step that takes away what is there. *)
  Lemma oinv_reset base out ds bf N s s' ij c x x' base' : oinv_at base out ds bf N s -> call_at scripts ij = Some c ->
    N ij = Some x -> (forall r, x <> TDone r) ->
    mclr ij \/ ((exists d, adds ij d) /\ nothing bf N ij) ->
    (base' = zero \/ puts ij base') ->
    st_keys s' !! k = Some base' \/ (st_keys s' !! k = None /\ mclr ij) ->
    may_write (c_req c) k ->
    at_stage bf (upd N ij x') [] ij c x' ->
    oinv_at base' [] [] bf (upd N ij x') s'.
  Proof.
    intros (H1 & H2 & H3 & H4 & H5 & H6 & H7 & H8) Hc Hn Hnx Hcl Hbase Hk Hmw Hst.
    assert (Hone : forall c', call_at scripts ij = Some c' -> c' = c) by congruence.
    assert (L : later bf bf N (upd N ij x')) by (by apply later_upd).
    assert (Hnb : forall t, ~ bf ij t).
    { intros t Hb. destruct (H7 _ _ Hb) as [r Hr]. apply (Hnx r). congruence. }
    assert (Hij : is_Some (N ij)) by (by rewrite Hn).
    assert (Hok : bof bf (fun b => is_Some (upd N ij x' b)) (past (upd N ij x')) base').
    { destruct Hbase as [->|Hput].
      - left. split; [done|]. destruct Hcl as [?|[_ [[? _]|(t & ? & ? & _)]]]; [|by left|].
        + right. exists ij. rewrite upd_same. eauto.
        + right. exists t. split; [done|]. by apply L.
      - right. right. exists ij. rewrite upd_same. split_and!; [done|eauto|]. intros t _ _. apply Hnb. }
    split_and!; try done.
    - split_and!; [constructor|constructor| |done]. intros a t Ha. by apply elem_of_nil in Ha.
    - intros a Ha. by apply elem_of_nil in Ha.
    - destruct Hk as [Hk|[Hk Hm]]; [left|right].
      + rewrite Hk. f_equal. symmetry. apply Hsum0. by eapply base_ok.
      + split_and!; [done|done|]. right. exists ij. rewrite upd_same. split_and!; [done|eauto|].
        intros a d y r _ Hb. by destruct (Hnb a).
    - intros a c' y Hc' Hw. destruct (decide (a = ij)) as [->|Hne].
      + rewrite upd_same. intros [= <-]. by apply Hone in Hc' as ->.
      + rewrite upd_other by done. intros Hy. eapply stage_later; [exact L|by rewrite Hy| |by eapply H5].
        intros d r Hd Hr _. right. exists ij. split_and!; [done|by apply L|apply Hnb|].
        destruct Hcl as [?|[? ?]]; [by left|right]. split; [done|]. by eapply nothing_later.
    - intros a b Hab. destruct (H7 a b Hab) as [r' Hr']. destruct (decide (a = ij)) as [->|Hne].
      + by destruct (Hnb b).
      + rewrite upd_other by done. eauto.
    - intros a c' y Hc' Hg. destruct (decide (a = ij)) as [->|Hne].
      + apply Hone in Hc' as ->. by destruct (gets_not_writes c Hg).
      + rewrite upd_other by done. intros Hy. eapply glance_later; [exact L|by rewrite Hy|by eapply H8].
  Qed.

  Lemma takes_clears ij c : call_at scripts ij = Some c -> takes k c -> mclr ij.
  Proof.
    intros Hc [Hd|(b & Hb & Hs)].
    - left. left. by exists c.
    - right. by exists c, b.
  Qed.
  Lemma sets_clears ij c v : call_at scripts ij = Some c -> sets_to k c v -> clr ij.
  Proof. intros Hc Hv. right. exists v. by exists c. Qed.

  Lemma sent_not_clears ij c b : call_at scripts ij = Some c -> sent_to k b c -> ~ clr ij.
  Proof.
    intros Hc Hs [Hd|(v & l & Hq & _)]%(clears_at _ _ Hc).
    - by eapply deletes_not_sent.
    - destruct Hs as (l' & Hcmd & _), Hq as (Hcmd' & _). congruence.
  Qed.

  Lemma sets_writes c v : sets_to k c v -> may_write (c_req c) k.
  Proof. intros (l & Hq & _). eapply set_of_writes. by exists (Some (kind v)), l. Qed.

  Lemma takes_not_amount c d : takes k c -> ~ amount c d.
  Proof. intros Ht Hd. by apply (Hdisj c d Hd). Qed.
  Lemma sets_not_amount c v d : sets_to k c v -> ~ amount c d.
  Proof. intros Hv Hd. by eapply (Hdisj c d Hd). Qed.

  Lemma oinv_step bf N s s' ij c q q' : oinv bf N s -> call_at scripts ij = Some c -> N ij = Some (TRun q) ->
    within (uses (c_req c)) (may_write (c_req c)) (r_command (c_req c) = CStats) q ->
    pstep q s = Some (q', s') -> oinv bf (upd N ij (TRun q')) s'.
  Proof.
    intros (base & out & ds & Hinv) Hc Hn Hwi Hst.
    pose proof Hinv as (H1 & H2 & H3 & H4 & H5 & H6 & H7 & H8).
    assert (Hi : issued scripts c) by (by exists ij).
    assert (L : forall x', later bf bf N (upd N ij x')) by (intros; by apply later_upd).
    assert (Hij : is_Some (N ij)) by (by rewrite Hn).
    destruct (within_pstep _ _ _ _ _ _ _ Hwi Hst) as [_ Hkeep].
    assert (Hnd : forall y r, N ij = Some (TDone r) -> exists r', y = TDone r') by (intros y r E; congruence).
    assert (Hdec : may_write (c_req c) k \/ ~ may_write (c_req c) k).
    { destruct (Hall c Hi) as [[d Hd]|[Ht|[[v Hv]|?]]]; [left; by eapply Hwr|left; by apply takes_writes| |by right].
      left. by eapply sets_writes. }
    destruct Hdec as [Hw|Hno].
    2: { exists base, out, ds. eapply oinv_keep; try done; try (by intros r E; apply (Hnd _ r)).
      - by apply Hkeep.
      - intros [Hd|[v Hv]]%(clears_at _ _ Hc); destruct Hno; [apply takes_writes; by left|by eapply sets_writes].
      - intros d Hd. destruct Hno. by eapply Hwr.
      - intros Hg. destruct (H8 ij c _ Hc Hg Hn) as [(g & f & [= ->] & Hgf & Hf)|(r & [[= ->]|?] & _)]; [|done|done].
        cbn in Hst. rewrite Hgf in Hst. injection Hst as <- <-. right. eexists. split; [by left|].
        destruct H4 as [->|(-> & _ & Hmiss)]; [left|right].
        + exists base, out, ds. split; [eapply sees_later; [apply L|done|by eapply sees_now]|].
          destruct H2 as (H2a & H2b & _). apply Hf; [by eapply base_ok| |by eapply sum_okd].
          rewrite <-(Forall2_length _ _ _ H2b). by eapply outs_length.
        + split; [|apply Hf]. eapply nothing_later; [apply L|done|]. by eapply missing_nothing. }
    assert (Hgw : gets c k ty -> False) by (intros Hg; by eapply gets_not_writes).
    assert (Hnret : forall q0 r, (forall r', q0 <> PRet r') -> N ij = Some (TRun q0) -> forall y,
      (forall r', ~ ret y r') -> (ret y r <-> exists x, N ij = Some x /\ ret x r)).
    { intros q0 r Hq0 Hn0 y Hy. split; [by intros ?%Hy|]. intros (x & Hx & Hr). rewrite Hn0 in Hx. injection Hx as <-.
      destruct Hr as [[= E]|?]; [|done]. by destruct (Hq0 r). }
    pose proof (H5 ij c _ Hc Hw Hn) as Hstage. remember (TRun q) as x0 eqn:Ex0.
    destruct Hstage as [d u Hd Hu|d u Hd Hu Hno|d x r Hd Hr Hh Hl|Hd|b x Hb Hs Hx|b v r Hb Hs|x r Ht Hr|v f u Hv Hf Hu|v u Hv Hu|v u Hv Hu|v x r Hv Hr].
    - (* An increment looks. *)
      injection Ex0 as <-. cbn in Hst. destruct H4 as [Hk|(Hk & -> & Hmiss)].
      + rewrite Hk in Hst. destruct (u (sum base ds)) as [v' r] eqn:E. injection Hst as <- <-.
        exists base, (out ++ [ij]), (ds ++ [d]).
        replace r with ((u (sum base ds)).2) by (by rewrite E). eapply oinv_add; try done.
        by rewrite E, st_keys_with.
      + rewrite Hk in Hst. injection Hst as <- <-. exists base, [], ds.
        eapply oinv_keep; try done; try (by intros r E; apply (Hnd _ r)); try (by intros ?%Hgw).
        * intros Ht. exfalso. apply (clears_at _ _ Hc) in Ht as [Ht|[v Ht]];
            [eapply takes_not_amount; [|done]; by left|by eapply sets_not_amount].
        * intros d' Hd' r. eapply Hnret; [|done|]; [done|by intros r' [?|?]].
        * intros _. eapply AInsert; [done|done|]. eapply nothing_later; [apply L|done|]. by eapply missing_nothing.
    - (* An increment that found nothing puts the empty value. *)
      injection Ex0 as <-. cbn in Hst. injection Hst as <- <-. exists zero, [], [].
      eapply oinv_reset; try done.
      + right. split; [|done]. exists d. by exists c.
      + by left.
      + left. by rewrite st_keys_with, lookup_insert.
      + by eapply AWait.
    - subst x. destruct Hr as [[= ->]|?]; done.
    - (* Delete *)
      injection Ex0 as <-. cbn in Hst. injection Hst as <- <-. exists zero, [], [].
      assert (Ht : takes k c) by (by left). pose proof (takes_clears _ _ Hc Ht) as Hm.
      eapply oinv_reset; try done; [by left|by left| |].
      + right. by rewrite st_keys_with, lookup_delete.
      + destruct (st_keys s !! k); (eapply ATook; [done|by left]).
    - (* Rename *)
      assert (Ht : takes k c) by (right; by exists b). pose proof (takes_clears _ _ Hc Ht) as Hm.
      assert (Hncl : ~ clr ij) by (by eapply sent_not_clears).
      subst x. destruct Hx as [[= ->]|[[= ->]|[= ->]]]; cbn in Hst; injection Hst as <- <-.
      + exists base, out, ds. eapply oinv_keep; try done; try (by intros r E; apply (Hnd _ r)); try (by intros ?%Hgw).
        * intros d Hd. by destruct (takes_not_amount c d).
        * intros _. destruct (st_keys s !! k); [eapply ARename; [done|done|auto]|]. eapply ATook; [done|by left].
      + exists base, out, ds. eapply oinv_keep; try done; try (by intros r E; apply (Hnd _ r)); try (by intros ?%Hgw).
        * intros d Hd. by destruct (takes_not_amount c d).
        * intros _. destruct (st_keys s !! b); [|eapply ARename; [done|done|auto]]. eapply ATook; [done|by left].
      + exists zero, [], []. eapply oinv_reset; try done; [by left|by left| |].
        * right. by rewrite st_keys_with, lookup_delete.
        * destruct (st_keys s !! k); [by eapply APut|]. eapply ATook; [done|by left].
    - (* Rename puts what it took at the other name. *)
      assert (Ht : takes k c) by (right; by exists b).
      injection Ex0 as <-. cbn in Hst. injection Hst as <- <-. exists base, out, ds.
      eapply oinv_keep; try done; try (by intros r' E; apply (Hnd _ r')); try (by intros ?%Hgw).
      + by rewrite st_keys_with, lookup_insert_ne.
      + intros Hcl. by destruct (sent_not_clears _ _ _ Hc Hs).
      + intros d Hd. by destruct (takes_not_amount c d).
      + intros _. eapply ATook; [done|by left].
    - subst x. destruct Hr as [[= ->]|?]; done.
    - (* Set takes away what is there. *)
      injection Ex0 as <-. cbn in Hst. injection Hst as <- <-. rewrite Hf. exists zero, [], [].
      pose proof (sets_clears _ _ _ Hc Hv) as Hcl. assert (Hm : mclr ij) by by left.
      eapply oinv_reset; try done; [by left|by left| |].
      + right. by rewrite st_keys_with, lookup_delete.
      + by eapply ASetWait.
    - (* Set looks. *)
      pose proof (sets_clears _ _ _ Hc Hv) as Hcl. assert (Hm : mclr ij) by by left.
      assert (Hpast : past N ij) by (eexists; split; [exact Hn|done]).
      injection Ex0 as <-. cbn in Hst. destruct H4 as [Hk|(Hk & -> & Hmiss)].
      + rewrite Hk in Hst. destruct (Hu base ds) as [E|E]; [by eapply base_ok|eapply sum_okd; apply H2| |];
          destruct (u (sum base ds)) as [v' r] eqn:Er; cbn in E; subst v'; injection Hst as <- <-.
        * exists v, [], []. eapply oinv_reset; try done; [by left|right; by exists c| |].
          -- left. by rewrite st_keys_with, lookup_insert.
          -- eapply ASetDone; [done|by left].
        * exists base, out, ds. eapply oinv_keep; try done; try (by intros r' E; apply (Hnd _ r')); try (by intros ?%Hgw).
          -- by rewrite st_keys_with, lookup_insert, Hk.
          -- by left.
          -- intros d Hd. by destruct (sets_not_amount c v d).
          -- intros _. eapply ASetDone; [done|by left].
      + rewrite Hk in Hst. injection Hst as <- <-. exists base, [], ds.
        eapply oinv_keep; try done; try (by intros r' E; apply (Hnd _ r')); try (by intros ?%Hgw).
        * by left.
        * intros d Hd. by destruct (sets_not_amount c v d).
        * intros _. by eapply ASetInsert.
    - (* Set puts the empty value. *)
      pose proof (sets_clears _ _ _ Hc Hv) as Hcl. assert (Hm : mclr ij) by by left.
      injection Ex0 as <-. cbn in Hst. injection Hst as <- <-. exists zero, [], [].
      eapply oinv_reset; try done; [by left|by left| |].
      + left. by rewrite st_keys_with, lookup_insert.
      + by eapply ASetWait.
    - subst x. destruct Hr as [[= ->]|?]; done.
  Qed.

  Lemma oinv_begin bf N s ij c : oinv bf N s -> call_at scripts ij = Some c -> N ij = None ->
    oinv bf (upd N ij (tstart c)) s.
  Proof.
    intros (base & out & ds & Hinv) Hc Hn. exists base, out, ds.
    assert (Hi : issued scripts c) by (by exists ij).
    eapply oinv_keep; try done.
    - intros r E. congruence.
    - intros [Hd|[v Hv]]%(clears_at _ _ Hc); right; unfold tstart.
      + rewrite (prog_delete _ _ Hd). unfold dl. eauto.
      + destruct (Hset c v Hi Hv) as (_ & f & u & -> & _). eauto.
    - intros d Hd r. split; [|intros (x & Hx & _); congruence]. unfold tstart.
      destruct (Hprog c d Hi Hd) as (u & -> & _). by intros [?|?].
    - intros Hw. unfold tstart. destruct (Hall c Hi) as [[d Hd]|[[Hd|(b & Hb & Hs)]|[[v Hv]|?]]]; [| | | |done].
      + destruct (Hprog c d Hi Hd) as (u & -> & Hu). by eapply AWait.
      + rewrite (prog_delete _ _ Hd). by apply ADel.
      + rewrite (prog_rename _ _ _ Hs). eapply ARename; [done|done|auto].
      + destruct (Hset c v Hi Hv) as (_ & f & u & -> & Hf & Hu). by eapply ASet.
    - intros Hg. left. unfold tstart. destruct (Hget c Hi Hg) as (g & f & -> & Hgf & Hf). by exists g, f.
  Qed.

  Lemma oinv_ret bf N s s' ij c x r : oinv bf N s -> call_at scripts ij = Some c -> N ij = Some x -> ret x r ->
    st_keys s' = st_keys s -> oinv bf (upd N ij (TDone r)) s'.
  Proof.
    intros (base & out & ds & Hinv) Hc Hn Hx Es. pose proof Hinv as (H1 & H2 & H3 & H4 & H5 & H6 & H7 & H8).
    exists base, out, ds.
    assert (L : later bf bf N (upd N ij (TDone r))) by (by apply later_upd).
    eapply oinv_keep; try done.
    - by rewrite Es.
    - eauto.
    - intros _. left. exists x. split; [done|]. intros f ->. by destruct Hx.
    - intros d Hd r'. split.
      + intros Hr'. assert (r' = r) as -> by (eapply ret_one; [|done]; by right). eauto.
      + intros (y & Hy & Hr'). assert (y = x) as -> by congruence. rewrite (ret_one _ _ _ Hx Hr'). by right.
    - intros Hw. pose proof (H5 ij c _ Hc Hw Hn) as Hstage.
      assert (Hstage' : at_stage bf (upd N ij (TDone r)) out ij c x).
      { eapply stage_later; [exact L|by rewrite Hn| |done]. auto. }
      destruct Hstage' as [d u Hd Hu|d u Hd Hu Hno|d x r' Hd Hr Hh Hl|Hd|b x Hb Hs Hx'|b v r' Hb Hs|x r' Ht Hr|v f u Hv Hf Hu|v u Hv Hu|v u Hv Hu|v x r' Hv Hr];
        try (by destruct Hx as [?|?]).
      + rewrite (ret_one _ _ _ Hx Hr) in Hh. eapply ADone; [done|by right|done|done].
      + by destruct Hx' as [->|[->| ->]], Hx as [?|?].
      + eapply ATook; [done|by right].
      + eapply ASetDone; [done|by right].
    - intros Hg. pose proof (H8 ij c _ Hc Hg Hn) as Hgl.
      assert (Hgl' : glance bf (upd N ij (TDone r)) ij c x) by (eapply glance_later; [exact L|by rewrite Hn|done]).
      destruct Hgl' as [(g & f & -> & _)|(r' & Hr' & H)]; [by destruct Hx as [?|?]|].
      assert (r' = r) as -> by (by eapply ret_one). right. exists r. split; [by right|done].
  Qed.

  Lemma oinv_init : oinv (fun _ _ => False) (fun _ => None) s0.
  Proof.
    destruct first as [v|] eqn:Hv.
    - exists v, [], []. split_and!; try done.
      + right. left. split; [done|]. by intros t _ (x & ? & _).
      + split_and!; [constructor|constructor| |done]. intros a t Ha. by apply elem_of_nil in Ha.
      + intros a Ha. by apply elem_of_nil in Ha.
      + left. rewrite Hsum0; [done|]. by apply Hfirst.
    - exists zero, [], []. split_and!; try done.
      + left. split; [done|]. by left.
      + split_and!; [constructor|constructor| |done]. intros a t Ha. by apply elem_of_nil in Ha.
      + intros a Ha. by apply elem_of_nil in Ha.
      + right. split_and!; [done|done|]. left. done.
  Qed.

  Hypothesis Hroom : room_for_all scripts s0.

  Lemma found_weaker (bf : nn -> nn -> Prop) (bg bg' : nn -> Prop) b : (forall a, bg a -> bg' a) ->
    found_nothing adds puts dels sends first bf bg b -> found_nothing adds puts dels sends first bf bg' b.
  Proof. intros H [?|(t & A1 & A2 & A3)]; [by left|right]. exists t. auto. Qed.
  Lemma wipes_weaker (bf : nn -> nn -> Prop) (bg bg' : nn -> Prop) a b : (forall a, bg a -> bg' a) ->
    wipes bf bg a b -> wipes bf bg' a b.
  Proof.
    intros H (A1 & A2 & A3 & A4). split_and!; auto. destruct A4 as [?|[? A4]]; [by left|right]. split; [done|].
    by eapply found_weaker.
  Qed.
  Lemma sees_weaker (bf : nn -> nn -> Prop) (bg bg' : nn -> Prop) a v l es : (forall a, bg a -> bg' a) ->
    sees bf bg a v l es -> sees bf bg' a v l es.
  Proof.
    intros H (A1 & A2 & A3 & A4). split_and!; [|done| |].
    - eapply (base_of_mono bf bf _ _ (fun t => bf t a)); [|done|done|exact A1]. intros b [? ?]. auto.
    - intros b Hb. destruct (A3 b Hb). auto.
    - intros b d Hd Hb Hn. destruct (A4 b d Hd Hb Hn) as (w & Hw & ?). exists w. split; [by eapply wipes_weaker|done].
  Qed.

  Lemma once_run sched x : sys_run sched (begin scripts s0) = Some x ->
    exists base out ds, counted_once adds puts dels sends first zero (before scripts s0 sched) sum (has_begun x)
      (has_returned x) (was_told scripts x) reads (told_none scripts x) (st_keys x.2 !! k) base out ds.
  Proof.
    intros Hr.
    assert (exists vs, rinv scripts s0 (JP oinv (before scripts s0 sched)) vs x) as [vs Hvs].
    { eapply race_rule; try done.
      - intros. by eapply oinv_ext.
      - intros. by eapply oinv_more.
      - intros. by eapply oinv_begin.
      - intros. by eapply oinv_step.
      - intros. by eapply oinv_ret.
      - by apply oinv_init. }
    pose proof Hvs as (_ & _ & _ & _ & (base & out & ds & H1 & H2 & H3 & H4 & H5 & H6 & H7 & H8)).
    assert (Hnow : forall a r, returned x a r -> now_of vs a = Some (TDone r))
      by (intros a r Ha; by eapply now_of_returned).
    assert (Hbeg : forall b, here (now_of vs) b -> has_begun x b).
    { intros b [y Hy] Hnb. rewrite (now_of_not_begun _ _ _ _ _ _ Hvs Hnb) in Hy. done. }
    assert (Hpast : forall t, clr t -> has_returned x t -> past (now_of vs) t).
    { intros t _ [r Ht%Hnow]. exists (TDone r). done. }
    assert (Hadd : forall a d r, adds a d -> returned x a r -> exists c, call_at scripts a = Some c /\
      heard (before scripts s0 sched) (now_of vs) a c r /\ (a ∉ out -> wiped (before scripts s0 sched) (now_of vs) a)).
    { intros a d r (c & Hc & Hd) Hret%Hnow. exists c. split; [done|].
      pose proof (H5 a c _ Hc (Hwr c d Hd) Hret) as Hst. remember (TDone r) as y eqn:Ey.
      destruct Hst as [| |d' y r' Hd' Hr' Hh Hl| |b y Hb Hs Hx'| |y r' Ht _| | | |v y r' Hv _]; try done.
      - subst y. assert (r' = r) as -> by (eapply ret_one; [|done]; by right). done.
      - subst y. by destruct Hx' as [?|[?|?]].
      - by destruct (takes_not_amount c d).
      - by destruct (sets_not_amount c v d). }
    exists base, out, ds. split_and!.
    - eapply (base_of_mono _ _ _ _ (past (now_of vs))); [exact Hbeg|exact Hpast|done|exact H1].
    - by eapply (added_up_mono _ _ (past (now_of vs))).
    - destruct H4 as [?|(A1 & A2 & A3)]; [by left|right]. split_and!; try done.
      destruct A3 as [[B1 B2]|(t & B1 & B2 & B3)]; [left|right].
      + split; [done|]. intros a d Ha [r Hret%Hnow]. eapply B2; [done|done|by right].
      + exists t. split_and!; [done|by apply Hbeg|]. intros a d Ha Hta [r Hret%Hnow].
        eapply B3; [done|done|done|by right].
    - intros i a Hi [r Hret]. destruct H2 as (_ & H2 & _).
      destruct (Forall2_lookup_l _ _ _ _ _ H2 Hi) as (d & _ & c & Hc & _).
      exists c, r. split; [done|]. split; [done|]. apply Hnow in Hret. eapply H6; try done. by right.
    - intros a d Ha [r Hret]. destruct (Hadd a d r Ha Hret) as (c & Hc & (v & l & es & B1 & B2) & _).
      exists v, l, es. split; [by eapply sees_weaker|by exists c, r].
    - intros a d Ha [r Hret] Hna. destruct (Hadd a d r Ha Hret) as (c & Hc & _ & Hl).
      destruct (Hl Hna) as (b & Hb). exists b. by eapply wipes_weaker.
    - intros a (c & Hc & Hg) [r Hret]. destruct (H8 a c _ Hc Hg (Hnow _ _ Hret)) as [(g & f & ? & _)|(r' & Hr' & H)]; [done|].
      assert (r' = r) as -> by (destruct Hr' as [?|[=]]; [done|congruence]).
      destruct H as [(v & l & es & B1 & B2)|[B1 ->]]; [left|right].
      + exists v, l, es. split; [by eapply sees_weaker|by exists c, r].
      + split; [by eapply found_weaker|by exists c].
  Qed.
End once.

Lemma once_weaker {A} (adds : nat * nat -> A -> Prop) puts dels sends first zero (bef bef' : nat * nat -> nat * nat -> Prop)
  sum (begun begun' over over' : nat * nat -> Prop) (says says' : nat * nat -> value -> Prop)
  (reads none none' : nat * nat -> Prop) now base out ds :
  (forall a b, bef' a b -> bef a b) -> (forall a, begun a -> begun' a) -> (forall a, over' a -> over a) ->
  (forall a v, over' a -> says a v -> says' a v) -> (forall a, over' a -> none a -> none' a) ->
  counted_once adds puts dels sends first zero bef sum begun over says reads none now base out ds ->
  counted_once adds puts dels sends first zero bef' sum begun' over' says' reads none' now base out ds.
Proof.
  intros Hb Hg Ho Hs Hno (H1 & H2 & H3 & H4 & H5 & H6 & H7).
  assert (Hbase : forall (some some' pst pst' : nat * nat -> Prop) v, (forall b, some b -> some' b) ->
    (forall t, pst' t -> pst t) -> base_of puts dels sends first zero bef some pst v ->
    base_of puts dels sends first zero bef' some' pst' v).
  { intros some some' pst pst' v E1 E2 [(-> & H)|[(A1 & A2)|(b & A1 & A2 & A3)]].
    - left. split; [done|]. destruct H as [?|(t & ? & ?)]; [by left|right]. exists t. auto.
    - right. left. split; [done|]. intros t Ht Hpt. by apply (A2 t Ht), E2.
    - right. right. exists b. split_and!; [done|auto|]. intros t Ht Hpt Hbf. eapply (A3 t); auto. }
  assert (Hup : forall (pst pst' : nat * nat -> Prop) l es, (forall t, pst' t -> pst t) ->
    added_up adds puts dels bef pst l es -> added_up adds puts dels bef' pst' l es).
  { intros pst pst' l es E (A1 & A2 & A3 & A4). split_and!; try done.
    - intros a t Ha Ht Hpt Hbf. eapply (A3 a t); auto.
    - intros i j a b Hi Hj Hab. eapply A4; eauto. }
  assert (Hfn : forall b, found_nothing adds puts dels sends first bef begun b ->
    found_nothing adds puts dels sends first bef' begun' b).
  { intros b [[B1 B2]|(t & B1 & B0 & B2 & B3)]; [left|right].
    - split; [done|]. intros a' d' Ha' Hab. by eapply B2, Hb.
    - exists t. split_and!; [done|auto|by intros ?%Hb|]. intros a' d' Ha' Hta Hab. eapply B3; eauto. }
  assert (Hwi : forall a b, may_wipe adds puts dels sends first bef begun a b ->
    may_wipe adds puts dels sends first bef' begun' a b).
  { intros a b (A1 & A2 & A3 & A4). split_and!; [done|auto|by intros ?%Hb|].
    destruct A4 as [?|[? A4]]; [by left|right]. auto. }
  assert (Hsee : forall a v l es, may_see adds puts dels sends first zero bef begun a v l es ->
    may_see adds puts dels sends first zero bef' begun' a v l es).
  { intros a v l es (A1 & A2 & A3 & A4). split_and!.
    - apply (Hbase (fun b => begun b /\ ~ bef a b) (fun b => begun' b /\ ~ bef' a b) (fun t => bef t a) (fun t => bef' t a));
        [|auto|done]. intros b [? Hn]. split; [auto|]. by intros ?%Hb.
    - apply (Hup (fun t => bef t a) (fun t => bef' t a)); auto.
    - intros b Hbl. destruct (A3 b Hbl) as [? Hn]. split; [auto|]. by intros ?%Hb.
    - intros b d Hd Hba Hn. destruct (A4 b d Hd (Hb _ _ Hba) Hn) as (w & Hw & Hnw). exists w.
      split; [auto|]. by intros ?%Hb. }
  split_and!.
  - by apply (Hbase begun begun' over over').
  - by apply (Hup over over').
  - destruct H3 as [?|(A1 & A2 & A3)]; [by left|right]. split_and!; try done.
    destruct A3 as [[B1 B2]|(t & B1 & B2 & B3)]; [left|right].
    + split; [done|]. intros a d Ha Hov. by eapply B2, Ho.
    + exists t. split_and!; [done|auto|]. intros a d Ha Hta Hov. eapply B3; eauto.
  - intros i a Hi Hov. apply Hs; [done|]. apply H4; auto.
  - intros a d Ha Hov. destruct (H5 a d Ha (Ho _ Hov)) as (v & l & es & A1 & A2). exists v, l, es. auto.
  - intros a d Ha Hov Hn. destruct (H6 a d Ha (Ho _ Hov) Hn) as (b & Hab). exists b. auto.
  - intros a Ha Hov. destruct (H7 a Ha (Ho _ Hov)) as [(v & l & es & A1 & A2)|[A1 A2]]; [left|right; auto].
    exists v, l, es. auto.
Qed.

(** With the locks of the map. *)
Lemma once_locked {A} sh k scripts s0 (adds : nat * nat -> A -> Prop) puts dels sends reads first zero sum lsched x :
  (forall sched y, sys_run sched (begin scripts s0) = Some y ->
     exists base out ds, counted_once adds puts dels sends first zero (before scripts s0 sched) sum (has_begun y)
       (has_returned y) (was_told scripts y) reads (told_none scripts y) (st_keys y.2 !! k) base out ds) ->
  lsys_run sh lsched (lbegin scripts s0) = Some x ->
  exists now base out ds, (unlocked sh x k -> st_keys x.2 !! k = now) /\
    counted_once adds puts dels sends first zero (lbefore sh scripts s0 lsched) sum (lhas_begun x)
      (lhas_returned x) (lwas_told scripts x) reads (ltold_none scripts x) now base out ds.
Proof.
  intros H Hr. destruct (lock_transfer _ _ _ _ _ Hr) as (sched & y & f & Hy & Hi & _ & _ & _ & Hb).
  destruct (H sched y Hy) as (base & out & ds & Hc).
  exists (st_keys y.2 !! k), base, out, ds. split.
  { intros Hu. by rewrite (sinv_key _ _ _ _ Hi Hu). }
  assert (Hsame : forall a r r', returned y a r -> lreturned x a r' -> r = r').
  { intros a r r' (cl & Ea & Eb) Hret. apply (sinv_returned _ _ _ _ _ Hi) in Hret as (cl' & Ea' & Eb'). congruence. }
  eapply once_weaker; [exact Hb| | | | |exact Hc].
  - intros a Ha Hn. by apply Ha, (sinv_not_begun _ _ _ _ Hi).
  - intros a [r Hret%(sinv_returned _ _ _ _ _ Hi)]. by exists r.
  - intros a v [r Hret] (c & r' & Hc' & Hr' & Hv). exists c, r. pose proof (Hsame _ _ _ Hr' Hret) as ->. done.
  - intros a [r Hret] (c & Hc' & Hr'). exists c. pose proof (Hsame _ _ _ Hr' Hret) as <-. done.
Qed.

(** ** Sets *)

Lemma set_is_prog c k v : sets_to k c v -> ordinary k -> exists f u,
  command_prog (c_env c) (c_req c) (c_res c) = PRemove k f /\
  (forall o, f o = PKoi k (blank (kind v)) u PRet) /\ upd_ok (c_env c) (c_res c) v u.
Proof.
  intros (l & (Hcmd & Hkt & Hc) & Hv) Hk. unfold command_prog. rewrite Hcmd. unfold cmd_set.
  destruct (spec_key_some (c_req c) CSet k l) as (-> & _ & Ha & _); try done.
  assert (Hl : l <> []) by (intros ->; by destruct (kind v)).
  destruct l as [|a l]; [done|]. rewrite Ha. cbn [head]. unfold resolve_type. rewrite Hkt.
  pose proof (set_typed_cases (c_env c) (c_req c) (c_res c) k (a :: l) (kind v) Hc Hcmd Hl Hk) as H. by rewrite Hv in H.
Qed.

Lemma upd_ok_sets e res v u w : upd_ok e res v u -> kind w = kind v -> (u w).1 = v \/ (u w).1 = w.
Proof.
  intros H E. destruct (H w) as [H1 _]. destruct (H1 E) as [(b & _ & ->)|(_ & [->| ->])]; auto.
Qed.

(** ** Gets *)

Lemma get_is_prog c k t : gets c k t -> ordinary k -> env_ok (c_env c) -> exists g f,
  command_prog (c_env c) (c_req c) (c_res c) = PGet k g /\ (forall o, g o = PRet (f o)) /\
  f None = CErr EKeyNonexistent (c_res c) /\ forall v, kind v = t -> responds (c_env c) (c_res c) v (f (Some v)).
Proof.
  intros Hg Hk He. pose proof Hg as (kt & l & (Hcmd & Hkt & Hl) & Ht).
  destruct (spec_key_some (c_req c) CGet k l) as (Hkey & _); try done.
  assert (Hgd : forall p, guarded (c_env c) k p = p).
  { intros p. unfold guarded. pose proof (ordinary_ok (debug (c_env c)) k Hk) as Hb. rewrite bad_key_guard in Hb.
    destruct (starts_with k reserved_prefix); [done|]. by destruct (debug (c_env c) && _). }
  set (f := fun o : option value => match o with None => CErr EKeyNonexistent (c_res c) | Some v =>
    match r_key_type (c_req c) with Some kt =>
      if decide (kind v = kt) then cres_of (write_value (c_env c) (c_res c) v) else CErr EKeyTypeDifferent (c_res c)
    | None => cres_of (write_value (c_env c) (c_res c) v) end end).
  assert (exists g, command_prog (c_env c) (c_req c) (c_res c) = PGet k g /\ forall o, g o = PRet (f o)) as (g & E & Hgf).
  { unfold command_prog. rewrite Hcmd. unfold cmd_get. rewrite Hkey. unfold key_ref.
    rewrite Hgd. eexists. split; [done|]. intros [v|]; [|done]. cbn.
    destruct (r_key_type (c_req c)); [|done]. by destruct (decide (kind v = _)). }
  exists g, f. split_and!; [done|done|done|]. intros v Hv.
  assert (Hroom : room (Store {[k := v]} ∅)).
  { intros m. unfold count. cbn [st_counters]. by rewrite lookup_empty. }
  pose proof (get_answers c (Store {[k := v]} ∅) k t v He Hroom Hk Hg (lookup_singleton _ _) Hv) as H.
  destruct (dispatch_cmd (c_env c) (Store {[k := v]} ∅) (c_req c) (c_res c) Hroom) as [E1 _].
  rewrite E1, E in H. cbn [run st_keys] in H. rewrite lookup_singleton, Hgf in H. done.
Qed.

(** ** A counter *)

(** [v] is an integer of at most [B]. *)
Definition small (B : Z) (v : value) : Prop := exists z, v = VInteger z /\ (- B <= z <= B)%Z.

Lemma c121_counter k scripts s0 B D sched x :
  room_for_all scripts s0 -> envs_ok scripts -> ordinary k ->
  (forall c, issued scripts c -> (exists d, adds_int c k d) \/ takes k c \/ (exists v, sets_to k c v) \/
     ~ may_write (c_req c) k) ->
  (0 <= B)%Z ->
  (forall v, st_keys s0 !! k = Some v \/ (exists c, issued scripts c /\ sets_to k c v) ->
     exists z, v = VInteger z /\ (- B <= z <= B)%Z) ->
  (forall c d, issued scripts c -> adds_int c k d -> - D <= d <= D)%Z ->
  i64_range (B + D * Z.of_nat (length (concat scripts))) ->
  sys_run sched (begin scripts s0) = Some x ->
  exists base out ds, counted_once (adds_there scripts (fun c => adds_int c k)) (puts_there scripts k)
    (dels_there scripts k) (sends_there scripts k) (st_keys s0 !! k) (VInteger 0) (before scripts s0 sched) counted_up
    (has_begun x) (has_returned x) (was_told scripts x) (reads_there scripts k KTInteger) (told_none scripts x)
    (st_keys x.2 !! k) base out ds.
Proof.
  intros Hroom Henv Hk Hall HB Hv HD Hrange Hr.
  assert (Hkind : forall w ds, small B w -> kind (counted_up w ds) = KTInteger) by (by intros w ds (z & -> & _)).
  eapply (once_run k scripts s0 (fun c => adds_int c k) (VInteger 0) counted_up (small B) (fun d => - D <= d <= D)%Z KTInteger); try done.
  - intros v (z & -> & _). cbn. by rewrite Z.add_0_r.
  - exists 0%Z. split; [done|lia].
  - intros v H. apply Hv. by left.
  - intros c d Hi Hd. pose proof (HD c d Hi Hd) as Hdd.
    assert (Hlen : 1 <= length (concat scripts)).
    { destruct Hi as [a Ha]. rewrite <-(all_calls_length scripts). apply all_calls_in in Ha.
      destruct (all_calls scripts); [by apply elem_of_nil in Ha|cbn; lia]. }
    assert (HDn : (D <= D * Z.of_nat (length (concat scripts)))%Z).
    { transitivity (D * 1)%Z; [lia|]. apply Z.mul_le_mono_nonneg_l; lia. }
    assert (Hd64 : i64_range d) by (unfold i64_range in *; lia).
    pose proof (adds_int_sure _ _ _ Hd Hk Hd64) as Hsure. unfold tstart in Hsure.
    destruct (adds_int_prog _ _ _ Hd) as [[E _]|(u & E & _)].
    { rewrite E in Hsure. cbn in Hsure. by destruct Hsure. }
    exists u. split; [exact E|]. intros d' v ds Hd' (z & -> & Hz) Hlt Hds.
    pose proof (HD c d' Hi Hd') as Hdd'. pose proof (summed_bound _ _ Hds) as Hb.
    assert (Hmul : (D * Z.of_nat (length ds) + D <= D * Z.of_nat (length (concat scripts)))%Z).
    { replace (D * Z.of_nat (length ds) + D)%Z with (D * Z.of_nat (S (length ds)))%Z by lia.
      apply Z.mul_le_mono_nonneg_l; lia. }
    cbn [counted_up]. rewrite summed_more, Z.add_assoc. set (w := (z + fold_right Z.add 0 ds)%Z) in *.
    destruct Hd' as (cmd & kt & l & Hq & Hch).
    destruct (c21_exact (c_env c) (Store {[k := VInteger w]} ∅) (c_req c) (c_res c) cmd kt l k d' w)
      as [F1 F2]; try done.
    + by apply Henv.
    + left. cbn [st_keys]. apply lookup_singleton.
    + unfold i64_range in *; lia.
    + unfold i64_range in *; lia.
    + by eapply koi_dispatch.
  - intros c v Hi Hs. assert (Hsm : small B v) by (apply Hv; right; by exists c). split; [done|].
    destruct (set_is_prog c k v Hs Hk) as (f & u & E & Hf & Hu). exists f, u.
    assert (Ek : kind v = KTInteger) by (by destruct Hsm as (z & -> & _)). rewrite Ek in Hf. split_and!; [done|done|].
    intros w ds Hw _. eapply upd_ok_sets; [done|]. by rewrite Ek, Hkind.
  - intros c Hi Hg. destruct (get_is_prog c k KTInteger Hg Hk (Henv c Hi)) as (g & f & E & Hgf & F1 & F2). exists g, f.
    split_and!; [done|done|]. split; [done|]. intros v ds Hv' _ _. by apply F2, Hkind.
  - intros c d. by apply adds_int_writes.
  - intros c d (cmd & kt & l & (Hq & _) & Hch).
    assert (Hcmd : r_command (c_req c) <> CDelete /\ r_command (c_req c) <> CRename /\ r_command (c_req c) <> CSet).
    { rewrite Hq. by destruct Hch as [(-> & _)|[(-> & _)|(? & ? & ? & _ & _ & [(-> & _)|(-> & _)])]]. }
    destruct Hcmd as (N1 & N2 & N3). split.
    + intros [(l' & Hq' & _)|(b & _ & l' & Hq' & _)]; congruence.
    + intros v (l' & (Hq' & _) & _). congruence.
Qed.

Lemma c121_counter_locked sh k scripts s0 B D lsched x :
  room_for_all scripts s0 -> envs_ok scripts -> ordinary k ->
  (forall c, issued scripts c -> (exists d, adds_int c k d) \/ takes k c \/ (exists v, sets_to k c v) \/
     ~ may_write (c_req c) k) ->
  (0 <= B)%Z ->
  (forall v, st_keys s0 !! k = Some v \/ (exists c, issued scripts c /\ sets_to k c v) ->
     exists z, v = VInteger z /\ (- B <= z <= B)%Z) ->
  (forall c d, issued scripts c -> adds_int c k d -> - D <= d <= D)%Z ->
  i64_range (B + D * Z.of_nat (length (concat scripts))) ->
  lsys_run sh lsched (lbegin scripts s0) = Some x ->
  exists now base out ds, (unlocked sh x k -> st_keys x.2 !! k = now) /\
    counted_once (adds_there scripts (fun c => adds_int c k)) (puts_there scripts k)
      (dels_there scripts k) (sends_there scripts k) (st_keys s0 !! k) (VInteger 0) (lbefore sh scripts s0 lsched)
      counted_up (lhas_begun x) (lhas_returned x) (lwas_told scripts x) (reads_there scripts k KTInteger) (ltold_none scripts x)
      now base out ds.
Proof. intros. eapply once_locked; [|done]. intros. by eapply c121_counter. Qed.

(** ** Appends *)

Lemma written_more t v ls l : t = KTBytes \/ t = KTList \/ t = KTString -> kind v = t ->
  (forall l', l' ∈ l :: ls -> is_Some (append_to (blank t) l')) ->
  append_to (written_on v ls) l = Some (written_on v (ls ++ [l])).
Proof.
  intros Ht <- H. destruct (H l) as [w Hw]; [by left|].
  destruct v; destruct Ht as [?|[?|?]]; try done; cbn in *; rewrite ?concat_app; cbn;
    rewrite ?concat_app, ?app_nil_r, ?app_assoc; try done.
  by destruct (forallb utf8_valid l).
Qed.

Lemma c121_log k scripts s0 t sched x :
  room_for_all scripts s0 -> envs_ok scripts -> ordinary k -> t = KTBytes \/ t = KTList \/ t = KTString ->
  (forall c, issued scripts c -> (exists l, appends c k t l /\ is_Some (append_to (blank t) l)) \/ takes k c \/
     (exists v, sets_to k c v) \/ ~ may_write (c_req c) k) ->
  (forall v, st_keys s0 !! k = Some v \/ (exists c, issued scripts c /\ sets_to k c v) -> kind v = t) ->
  sys_run sched (begin scripts s0) = Some x ->
  exists base out ls, counted_once (adds_there scripts (fun c => appends c k t)) (puts_there scripts k)
    (dels_there scripts k) (sends_there scripts k) (st_keys s0 !! k) (blank t) (before scripts s0 sched) written_on
    (has_begun x) (has_returned x) (was_told scripts x) (reads_there scripts k t) (told_none scripts x)
    (st_keys x.2 !! k) base out ls.
Proof.
  intros Hroom Henv Hk Ht Hall Hv Hr.
  assert (Hwr : forall c l, appends c k t l -> may_write (c_req c) k).
  { intros c l Ha. pose proof Ha as (Hcm & _). split; [by rewrite Hcm|]. left. by eapply asks_arg0. }
  assert (Hdj : forall c l, appends c k t l -> ~ takes k c /\ forall v, ~ sets_to k c v).
  { intros c l (Hq & _). split.
    - intros [(l' & Hq' & _)|(b & _ & l' & Hq' & _)]; congruence.
    - intros v (l' & (Hq' & _) & _). congruence. }
  assert (Hfit : forall c l, issued scripts c -> appends c k t l -> is_Some (append_to (blank t) l)).
  { intros c l Hi Ha. destruct (Hdj c l Ha) as [N1 N2].
    destruct (Hall c Hi) as [(l' & Ha' & Hl')|[?|[[v ?]|Hno]]]; [|done|by destruct (N2 v)|destruct Hno; by eapply Hwr].
    destruct Ha as (_ & _ & Ha), Ha' as (_ & _ & Ha'). by pose proof (carries_unique _ _ _ Ha Ha') as [= <-]. }
  assert (Hkind : forall w ls, kind w = t -> kind (written_on w ls) = t) by (by intros w ls <-; destruct w).
  eapply (once_run k scripts s0 (fun c => appends c k t) (blank t) written_on (fun v => kind v = t)
    (fun l => is_Some (append_to (blank t) l)) t); try done.
  - intros v <-. destruct v, Ht as [?|[?|?]]; try done; cbn; by rewrite app_nil_r.
  - by destruct Ht as [->|[->| ->]].
  - intros v H. apply Hv. by left.
  - intros c l Hi Ha. destruct (append_is_koi _ _ _ _ Ha Hk Ht) as (u & E).
    exists u. split; [done|]. intros l' v ls Ha' Hkv _ Hls.
    assert (Hm : append_to (written_on v ls) l' = Some (written_on v (ls ++ [l']))).
    { apply (written_more t); [done|done|]. intros l1 [->|Hl1]%elem_of_cons; [by eapply Hfit|].
      rewrite Forall_forall in Hls. by apply Hls. }
    destruct (c24_append (c_env c) (Store {[k := written_on v ls]} ∅) (c_req c) (c_res c) (Some t) k l' t (written_on v ls)
      (written_on v (ls ++ [l']))) as [F1 F2]; try done.
    + by apply Henv.
    + by left.
    + split; [by apply Hkind|]. left. cbn [st_keys]. apply lookup_singleton.
    + by eapply koi_dispatch.
  - intros c v Hi Hs. assert (Ek : kind v = t) by (apply Hv; right; by exists c). split; [done|].
    destruct (set_is_prog c k v Hs Hk) as (f & u & E & Hf & Hu). exists f, u. rewrite Ek in Hf. split_and!; [done|done|].
    intros w ls Hw _. eapply upd_ok_sets; [done|]. by rewrite Ek, Hkind.
  - intros c Hi Hg. destruct (get_is_prog c k t Hg Hk (Henv c Hi)) as (g & f & E & Hgf & F1 & F2). exists g, f.
    split_and!; [done|done|]. split; [done|]. intros v ls Hv' _ _. by apply F2, Hkind.
  - intros c Hi. destruct (Hall c Hi) as [(l & ? & _)|[?|[?|?]]]; eauto.
Qed.

Lemma c121_log_locked sh k scripts s0 t lsched x :
  room_for_all scripts s0 -> envs_ok scripts -> ordinary k -> t = KTBytes \/ t = KTList \/ t = KTString ->
  (forall c, issued scripts c -> (exists l, appends c k t l /\ is_Some (append_to (blank t) l)) \/ takes k c \/
     (exists v, sets_to k c v) \/ ~ may_write (c_req c) k) ->
  (forall v, st_keys s0 !! k = Some v \/ (exists c, issued scripts c /\ sets_to k c v) -> kind v = t) ->
  lsys_run sh lsched (lbegin scripts s0) = Some x ->
  exists now base out ls, (unlocked sh x k -> st_keys x.2 !! k = now) /\
    counted_once (adds_there scripts (fun c => appends c k t)) (puts_there scripts k)
      (dels_there scripts k) (sends_there scripts k) (st_keys s0 !! k) (blank t) (lbefore sh scripts s0 lsched)
      written_on (lhas_begun x) (lhas_returned x) (lwas_told scripts x) (reads_there scripts k t) (ltold_none scripts x)
      now base out ls.
Proof. intros. eapply once_locked; [|done]. intros. by eapply c121_log. Qed.

(** A call that nothing may have undone is counted. *)
Lemma c121_kept {A} (adds : nat * nat -> A -> Prop) puts dels sends first zero bef sum begun over says reads none now
  base out ds a d :
  counted_once adds puts dels sends first zero bef sum begun over says reads none now base out ds -> adds a d -> over a ->
  (forall b, may_clear puts dels sends b -> begun b -> bef b a) ->
  (forall b d', adds b d' -> begun b -> b <> a -> bef b a \/ ~ found_nothing adds puts dels sends first bef begun b) ->
  a ∈ out.
Proof.
  intros (_ & _ & _ & _ & _ & H6 & _) Ha Ho Hcl Had.
  destruct (decide (a ∈ out)) as [|Hn]; [done|].
  destruct (H6 a d Ha Ho Hn) as (b & B1 & B2 & B3 & B4). destruct B4 as [B4|[[d' B4] B5]].
  - by destruct B3; apply Hcl.
  - by destruct (Had b d' B4 B2 B1).
Qed.
