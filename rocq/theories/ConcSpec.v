(** Vocabulary for statements about concurrent commands (C51 - C57, C63, C64). *)
From Verif Require Import Bytes Value CommandId Request Metrics Prog Commands Concurrent HistorySpec.
From stdpp Require Import gmap list.
From Coq Require Import NArith ZArith.

(** Clients that have just called [dispatch]. *)
Definition start (cs : list call) (s : store) : pool :=
  (map (fun c => dispatch_prog (c_env c) (c_req c) (c_res c)) cs, s).

(** After the schedule the clients are at [ts] and the store is [s]. *)
Definition reaches (cs : list call) (s0 : store) (sched : list nat) (ts : list prog) (s : store)
  : Prop := pool_run sched (start cs s0) = Some (ts, s).

(** All of them have returned, with these outcomes. *)
Definition all_returned (ts : list prog) (rs : list cres) : Prop := ts = map PRet rs.

(** The counters cannot overflow while these commands run. *)
Definition room_for (cs : list call) (s : store) : Prop :=
  forall m, (count s m + lenN cs < 2 ^ 64)%N.

(** The keys a request reads or writes. *)
Definition uses (req : request) (k : bytes) : Prop :=
  match r_command req with
  | CEcho | CStats => False
  | CExists | CIs => exists i, arg req i = Some k
  | CRename => arg req 0 = Some k \/ arg req 1 = Some k
  | _ => arg req 0 = Some k
  end.

(** The keys a request may change. *)
Definition may_write (req : request) (k : bytes) : Prop :=
  read_only (r_command req) = false /\ names req k.

(** Client [i] has the keys it uses to itself: no other call may change them. *)
Definition undisturbed (cs : list call) (i : nat) (c : call) : Prop :=
  forall j c' k, j <> i -> cs !! j = Some c' -> uses (c_req c) k -> ~ may_write (c_req c') k.

(** The call adds [d] to the integer at [k]. *)
Definition adds_int (c : call) (k : bytes) (d : Z) : Prop :=
  exists cmd kt l, asks (c_req c) cmd kt l /\ changes_int cmd kt l k d.

(** The amounts of the calls that succeeded. *)
Fixpoint gained (ds : list Z) (rs : list cres) : Z :=
  match ds, rs with
  | d :: ds, r :: rs => ((if is_ok r then d else 0) + gained ds rs)%Z
  | _, _ => 0%Z
  end.

(** The sum of the picked amounts. *)
Fixpoint picked (ds : list Z) (bs : list bool) : Z :=
  match ds, bs with
  | d :: ds, b :: bs => ((if b : bool then d else 0) + picked ds bs)%Z
  | _, _ => 0%Z
  end.

(** How many clients have returned successfully, or with an error. *)
Definition returned_ok (p : prog) : bool := match p with PRet (COk _) => true | _ => false end.
Definition returned_err (p : prog) : bool := match p with PRet (CErr _ _) => true | _ => false end.
Definition how_many_at (f : prog -> bool) (ts : list prog) : N :=
  lenN (filter (fun p => f p = true) ts).

(** Commands that look at or change one key once. *)
Definition one_access (req : request) : Prop :=
  match r_command req with
  | CGet | CDelete | CType | CEcho => True
  | CExists | CIs => (arg_count req <= 1)%N
  | CLength | CKeys => r_key_type req <> None
  | _ => False
  end.

(** Commands that change one key in one go if it exists. *)
Definition one_update (req : request) : Prop :=
  match r_command req with
  | CIncrement | CDecrement | CIncrementBy | CDecrementBy => True
  | CAppend => r_key_type req <> None
  | _ => False
  end.

(** Client [i], which runs the call [c] and returned [r], behaved as if [dispatch] had run
    alone at one instant, after [at_] steps of the schedule: at the beginning or while it had
    not returned yet.  It answered what [dispatch] answers in the state of that instant, its step there (if any) changes the keys as
    [dispatch] does, and its other steps change no key. *)
Definition linearized (i : nat) (c : call) (sched : list nat) (x0 : pool) (r : cres) : Prop :=
  exists at_ ts1 s1,
    (at_ <= length sched)%nat /\
    pool_run (take at_ sched) x0 = Some (ts1, s1) /\
    (at_ = 0%nat \/ forall r', ts1 !! i <> Some (PRet r')) /\
    let alone := dispatch (c_env c) s1 (c_req c) (c_res c) in
    r = alone.2 /\
    (sched !! at_ <> Some i -> st_keys alone.1 = st_keys s1) /\
    forall n x y, sched !! n = Some i ->
      pool_run (take n sched) x0 = Some x -> pool_run (take (S n) sched) x0 = Some y ->
      st_keys y.2 = if decide (n = at_) then st_keys alone.1 else st_keys x.2.

(** The key is there all the time. *)
Definition always_there (sched : list nat) (x0 : pool) (k : bytes) : Prop :=
  forall n x, pool_run (take n sched) x0 = Some x -> is_Some (st_keys x.2 !! k).

(** The empty value of a type. *)
Definition blank (t : key_type) : value :=
  match t with
  | KTBytes => VBytes []
  | KTBoolean => VBoolean false
  | KTFloat => VFloat 0
  | KTInteger => VInteger 0
  | KTString => VString []
  | KTList => VList []
  | KTMap => VMap ∅
  | KTSet => VSet ∅
  end.

(** What a key may hold while one Set of [v], of type [t], is under way: the old value,
    nothing, the empty value of the type, or the new value. *)
Definition mid_set (old : option value) (t : key_type) (v : value) (now : option value) : Prop :=
  now = old \/ now = None \/ now = Some (blank t) \/ now = Some v.

(** Where a schedule leads; for the examples. *)
Definition after (cs : list call) (s0 : store) (sched : list nat) : pool :=
  default (start cs s0) (pool_run sched (start cs s0)).

Definition ask (c : command_id) (kt : option key_type) (l : list bytes) : call :=
  Call (env_std false) (a_request c kt l) [].
