(** Properties of single commands on any state of the engine: C17 - C31, C34, C35.
    The vocabulary is in [HistorySpec], [Utf8Spec], [RequestSpec] and [WireSpec]. *)
From Coq Require Import String.
From Verif Require Import Bytes BytesFacts Utf8 Utf8Spec Float64 Value CommandId
  Request Response RespContext Metrics Prog Commands EngineSpec WireSpec RequestSpec HistorySpec
  ReservedSpec EngineProps ReservedFacts.
From stdpp Require Import gmap list.
From Coq Require Import NArith ZArith.

(** The state of the examples. *)
Definition example_store : store := store_of [
  (lit "int", VInteger 41); (lit "max", VInteger 9223372036854775807);
  (lit "float", VFloat f64_one); (lit "str", VString (map n2b [195; 169; 33]%N));
  (lit "list", VList [lit "a"]);
  (lit "map", VMap {[lit "x" := lit "1"; lit "y" := lit "2"]});
  (lit "__hop__:secret", VBytes (lit "s"))].

(** The hypotheses that the examples share. *)
Definition example_ok (k : bytes) (c : command_id) (kt : option key_type) (l : list bytes) : Prop :=
  env_ok (env_std true) /\ room example_store /\ ordinary k /\ asks (a_request c kt l) c kt l.

Ltac example :=
  split_and!; [apply env_std_ok | apply store_of_room | apply ordinary_dec; vm_compute; reflexivity
              | apply a_request_asks; [reflexivity|vm_compute; discriminate|vm_compute; reflexivity]].
Ltac asked := apply a_request_asks; [reflexivity|vm_compute; discriminate|vm_compute; reflexivity].

Notation runs c kt l :=
  (dispatch (env_std true) example_store (a_request c kt l) []) (only parsing).

(** C17: a typed or untyped Set of any value answers the value; unless the (debug) build crashes
    on an oversized answer, Get, Type and Exists then answer for that value in every state with
    that keyspace. *)
Theorem C17_set_then_get :
  forall e s req res k v l kt,
  env_ok e -> room s -> ordinary k -> value_wf v -> spells v l -> l <> [] ->
  acts_on s kt k KTBytes (kind v) -> asks req CSet kt (k :: l) ->
  let out := dispatch e s req res in
  responds e res v out.2 /\
  (out.2 <> CPanic ->
   forall e' s' req' res', env_ok e' -> room s' -> st_keys s' = st_keys out.1 ->
   (asks req' CGet None [k] \/ asks req' CGet (Some (kind v)) [k] ->
    responds e' res' v (dispatch e' s' req' res').2) /\
   (asks req' CType None [k] ->
    responds e' res' (VInteger (Z.of_N (key_type_to_u8 (kind v))))
      (dispatch e' s' req' res').2) /\
   (asks req' CExists None [k] ->
    responds e' res' (VBoolean true) (dispatch e' s' req' res').2)).
Proof. exact c17. Qed.
Print Assumptions C17_set_then_get.

Example C17_nonvacuous :
  example_ok (lit "k") CSet (Some KTList) [lit "k"; lit "x"; lit "1"] /\
  spells (VList [lit "x"; lit "1"]) [lit "x"; lit "1"] /\
  spells (VMap {[lit "x" := lit "1"; lit "y" := lit "2"]}) [lit "y"; lit "2"; lit "x"; lit "1"] /\
  acts_on example_store (Some KTList) (lit "k") KTBytes KTList /\
  decoded (runs CSet (Some KTList) [lit "k"; lit "x"; lit "1"]).2
  = Some (PConcluded (RValue (VList [lit "x"; lit "1"]))).
Proof.
  split; [example|]. split; [done|]. split.
  { exists [(lit "y", lit "2"); (lit "x", lit "1")]. split; [|reflexivity].
    replace (map_to_list _) with [(lit "x", lit "1"); (lit "y", lit "2")]
      by (vm_compute; reflexivity).
    constructor. }
  split; [by left|]. vm_compute. reflexivity.
Qed.

(** C18: for any request at all and any outcome, the keys it does not name are left alone. *)
Theorem C18_other_keys_untouched :
  forall e s req res k,
  well_typed (st_keys s) -> ~ names req k ->
  st_keys (dispatch e s req res).1 !! k = st_keys s !! k.
Proof. exact c18. Qed.
Print Assumptions C18_other_keys_untouched.

Example C18_nonvacuous :
  ~ names (a_request CSet None [lit "int"; lit "x"]) (lit "float") /\
  st_keys (runs CSet (Some KTBytes) [lit "int"; lit "x"]).1 !! lit "int" = Some (VBytes (lit "x")) /\
  well_typed (st_keys example_store).
Proof.
  split_and!.
  - intros [H|[H _]]; vm_compute in H; discriminate.
  - vm_compute. reflexivity.
  - intros k v Hv. apply elem_of_list_to_map_2 in Hv. apply elem_of_list_In in Hv.
    repeat (destruct Hv as [Hv|Hv]; [injection Hv as _ <-; vm_compute; repeat split; done|]).
    destruct Hv.
Qed.

(** C19: the commands that read leave the whole keyspace as it was, whatever the outcome. *)
Theorem C19_read_only :
  forall e s req res,
  well_typed (st_keys s) -> read_only (r_command req) = true ->
  st_keys (dispatch e s req res).1 = st_keys s.
Proof. exact c19. Qed.
Print Assumptions C19_read_only.

Example C19_nonvacuous :
  read_only CKeys = true /\ is_ok (runs CKeys None [lit "map"]).2 = true.
Proof. vm_compute. split; reflexivity. Qed.

(** C20 fails: a float increment of any missing key answers an error, yet creates the key. *)
Theorem C20_refuted :
  forall e s req res c k r,
  env_ok e -> room s -> (c = CIncrement \/ c = CDecrement) ->
  asks req c (Some KTFloat) (k :: r) -> ordinary k -> st_keys s !! k = None ->
  (exists err, (dispatch e s req res).2 = CErr err res) /\
  st_keys (dispatch e s req res).1 <> st_keys s.
Proof. exact c20_false. Qed.
Print Assumptions C20_refuted.

Example C20_refuted_nonvacuous :
  example_ok (lit "new") CIncrement (Some KTFloat) [lit "new"] /\
  st_keys example_store !! lit "new" = None.
Proof. split; [example|]. reflexivity. Qed.

(** C20, proved part: but for the float increment of a missing key, an error changes neither the
    keyspace nor the response buffer. *)
Theorem C20_partial :
  forall e s req res l err out,
  env_ok e -> room s -> carries req l ->
  (float_step req -> forall k r, l = k :: r -> is_Some (st_keys s !! k)) ->
  (dispatch e s req res).2 = CErr err out ->
  st_keys (dispatch e s req res).1 = st_keys s /\ out = res.
Proof. exact c20. Qed.
Print Assumptions C20_partial.

Example C20_nonvacuous :
  (runs CRename None [lit "int"; lit "float"]).2 = CErr EPreconditionFailed [] /\
  (runs CGet (Some KTMap) [lit "int"]).2 = CErr EKeyTypeDifferent [].
Proof. vm_compute. split; reflexivity. Qed.

(** C21: sums that fit are exact (and the amount must be negatable, see C21_panics). *)
Theorem C21_exact :
  forall e s req res c kt l k n z,
  env_ok e -> room s -> asks req c kt l -> changes_int c kt l k n -> ordinary k ->
  int_at s k z -> i64_range n -> i64_range (z + n) ->
  responds e res (VInteger (z + n)) (dispatch e s req res).2 /\
  st_keys (dispatch e s req res).1 = <[k := VInteger (z + n)]> (st_keys s).
Proof. exact c21_exact. Qed.
Print Assumptions C21_exact.

(** C21: release builds wrap. *)
Theorem C21_wraps :
  forall e s req res c kt l k n z,
  env_ok e -> room s -> asks req c kt l -> changes_int c kt l k n -> ordinary k ->
  int_at s k z -> debug e = false ->
  responds e res (VInteger (i64_wrap (z + n))) (dispatch e s req res).2 /\
  st_keys (dispatch e s req res).1 = <[k := VInteger (i64_wrap (z + n))]> (st_keys s).
Proof. exact c21_wraps. Qed.
Print Assumptions C21_wraps.

(** C21: debug builds panic and leave the keyspace as it was if the sum or the negated amount does
    not fit. *)
Theorem C21_panics :
  forall e s req res c kt l k n z,
  env_ok e -> room s -> asks req c kt l -> changes_int c kt l k n -> ordinary k ->
  int_at s k z -> debug e = true -> ~ (i64_range n /\ i64_range (z + n)) ->
  (dispatch e s req res).2 = CPanic /\
  st_keys (dispatch e s req res).1 = st_keys s.
Proof. exact c21_panics. Qed.
Print Assumptions C21_panics.

(** C21: keys of another kind are refused and left alone. *)
Theorem C21_other_kinds :
  forall e s req res c kt l k n v,
  env_ok e -> room s -> asks req c kt l -> changes_int c kt l k n -> ordinary k ->
  st_keys s !! k = Some v -> kind v <> KTInteger -> (debug e = true -> i64_range n) ->
  (dispatch e s req res).2 = CErr EKeyTypeDifferent res /\
  st_keys (dispatch e s req res).1 = st_keys s.
Proof. exact c21_other. Qed.
Print Assumptions C21_other_kinds.

(** C21: a change followed by the opposite change restores the keyspace, also across wrapping. *)
Theorem C21_inverse :
  forall e s req res c kt l k n z e' s' req' res' c' kt' l',
  env_ok e -> room s -> asks req c kt l -> changes_int c kt l k n -> ordinary k ->
  st_keys s !! k = Some (VInteger z) -> i64_range z ->
  (dispatch e s req res).2 <> CPanic ->
  env_ok e' -> room s' -> asks req' c' kt' l' -> changes_int c' kt' l' k (- n) ->
  st_keys s' = st_keys (dispatch e s req res).1 ->
  (dispatch e' s' req' res').2 <> CPanic ->
  st_keys (dispatch e' s' req' res').1 = st_keys s.
Proof. exact c21_inverse. Qed.
Print Assumptions C21_inverse.

Example C21_nonvacuous :
  example_ok (lit "int") CDecrementBy None [lit "int"; i64_enc 50] /\
  changes_int CDecrementBy None [lit "int"; i64_enc 50] (lit "int") (-50) /\
  int_at example_store (lit "int") 41 /\
  decoded (runs CDecrementBy None [lit "int"; i64_enc 50]).2
  = Some (PConcluded (RValue (VInteger (-9)))) /\
  (runs CIncrement None [lit "max"]).2 = CPanic.
Proof.
  split; [example|]. split.
  { right. right. exists 50%Z, [], []. vm_compute. repeat split; try done. by right. }
  split; [by left|]. vm_compute. split; reflexivity.
Qed.

(** C22 fails on missing keys: the key created is an integer, and an error is answered. *)
Theorem C22_refuted :
  forall e s req res c k r,
  env_ok e -> room s -> (c = CIncrement \/ c = CDecrement) ->
  asks req c (Some KTFloat) (k :: r) -> ordinary k -> st_keys s !! k = None ->
  (dispatch e s req res).2 = CErr EKeyTypeDifferent res /\
  st_keys (dispatch e s req res).1 !! k = Some (VInteger 0).
Proof. exact c22_false. Qed.
Print Assumptions C22_refuted.

Example C22_refuted_nonvacuous :
  example_ok (lit "new") CDecrement (Some KTFloat) [lit "new"] /\
  st_keys example_store !! lit "new" = None.
Proof. split; [example|]. reflexivity. Qed.

(** C22, proved part: on float keys the IEEE sum is stored and answered. Missing: missing keys. *)
Theorem C22_partial :
  forall e s req res c k r f x,
  env_ok e -> room s -> asks req c (Some KTFloat) (k :: r) -> float_amount c x ->
  ordinary k -> st_keys s !! k = Some (VFloat f) ->
  responds e res (VFloat (f64_add f x)) (dispatch e s req res).2 /\
  st_keys (dispatch e s req res).1 = <[k := VFloat (f64_add f x)]> (st_keys s).
Proof. exact c22_float. Qed.
Print Assumptions C22_partial.

(** C22, proved part: keys of other kinds are refused and left alone. *)
Theorem C22_partial_other_kinds :
  forall e s req res c k r x v,
  env_ok e -> room s -> asks req c (Some KTFloat) (k :: r) -> float_amount c x ->
  ordinary k -> st_keys s !! k = Some v -> kind v <> KTFloat ->
  (dispatch e s req res).2 = CErr EKeyTypeDifferent res /\
  st_keys (dispatch e s req res).1 = st_keys s.
Proof. exact c22_other. Qed.
Print Assumptions C22_partial_other_kinds.

Example C22_nonvacuous :
  example_ok (lit "float") CIncrement (Some KTFloat) [lit "float"] /\
  decoded (runs CIncrement (Some KTFloat) [lit "float"]).2
  = Some (PConcluded (RValue (VFloat 4611686018427387904))).
Proof. split; [example|]. vm_compute. reflexivity. Qed.

(** C23 fails always: no float key can be changed by a float amount. *)
Theorem C23_refuted :
  forall e s req res c kt k f x r,
  env_ok e -> room s -> (c = CIncrementBy \/ c = CDecrementBy) ->
  asks req c kt (k :: be_enc 8 x :: r) -> ordinary k ->
  st_keys s !! k = Some (VFloat f) ->
  is_ok (dispatch e s req res).2 = false.
Proof. exact c23_false. Qed.
Print Assumptions C23_refuted.

(** C23, proved part: the request is refused with KeyTypeDifferent and the keyspace is unchanged (but
    for the one amount whose bits a debug build cannot negate). Missing: the sum. *)
Theorem C23_partial :
  forall e s req res c kt k f x r,
  env_ok e -> room s -> (c = CIncrementBy \/ c = CDecrementBy) ->
  asks req c kt (k :: be_enc 8 x :: r) -> ordinary k ->
  st_keys s !! k = Some (VFloat f) ->
  st_keys (dispatch e s req res).1 = st_keys s /\
  ((dispatch e s req res).2 = CErr EKeyTypeDifferent res \/
   (debug e = true /\ c = CDecrementBy /\ be_enc 8 x = i64_enc (- i64_half) /\
    (dispatch e s req res).2 = CPanic)).
Proof. exact c23_refused. Qed.
Print Assumptions C23_partial.

Example C23_nonvacuous :
  example_ok (lit "float") CIncrementBy (Some KTFloat) [lit "float"; be_enc 8 f64_one] /\
  (runs CIncrementBy (Some KTFloat) [lit "float"; be_enc 8 f64_one]).2
  = CErr EKeyTypeDifferent [].
Proof. split; [example|]. vm_compute. reflexivity. Qed.

(** C24: the old value followed by the arguments is stored and answered. *)
Theorem C24_append :
  forall e s req res kt k l t old new,
  env_ok e -> room s -> asks req CAppend kt (k :: l) -> ordinary k ->
  acts_on s kt k KTBytes t -> append_base s k t old -> append_to old l = Some new ->
  responds e res new (dispatch e s req res).2 /\
  st_keys (dispatch e s req res).1 = <[k := new]> (st_keys s).
Proof. exact c24_append. Qed.
Print Assumptions C24_append.

(** C24: appending in two requests equals appending in one. *)
Theorem C24_two_requests_or_one :
  forall e s req res kt k l1 l2 t old m new e' s' req' res' kt' e2 req2 res2,
  env_ok e -> room s -> asks req CAppend kt (k :: l1) -> ordinary k ->
  acts_on s kt k KTBytes t -> append_base s k t old -> append_to old l1 = Some m ->
  env_ok e' -> room s' -> st_keys s' = st_keys (dispatch e s req res).1 ->
  asks req' CAppend kt' (k :: l2) -> (kt' = None \/ kt' = Some t) ->
  append_to m l2 = Some new ->
  env_ok e2 -> asks req2 CAppend kt (k :: l1 ++ l2) ->
  st_keys (dispatch e' s' req' res').1 = st_keys (dispatch e2 s req2 res2).1.
Proof. exact c24_two. Qed.
Print Assumptions C24_two_requests_or_one.

(** C24: a key of another kind, or of a kind nothing can be appended to, is refused and left alone. *)
Theorem C24_other_kinds :
  forall e s req res kt k l t v,
  env_ok e -> room s -> asks req CAppend kt (k :: l) -> ordinary k ->
  acts_on s kt k KTBytes t -> st_keys s !! k = Some v ->
  (kind v <> t \/ append_to v [] = None) ->
  (dispatch e s req res).2 = CErr EKeyTypeDifferent res /\
  st_keys (dispatch e s req res).1 = st_keys s.
Proof. exact c24_different. Qed.
Print Assumptions C24_other_kinds.

Example C24_nonvacuous :
  example_ok (lit "list") CAppend None [lit "list"; lit "b"; lit "c"] /\
  acts_on example_store None (lit "list") KTBytes KTList /\
  append_base example_store (lit "list") KTList (VList [lit "a"]) /\
  decoded (runs CAppend None [lit "list"; lit "b"; lit "c"]).2
  = Some (PConcluded (RValue (VList [lit "a"; lit "b"; lit "c"]))).
Proof.
  split; [example|]. split.
  { right. left. split; [done|]. exists (VList [lit "a"]). split; reflexivity. }
  split; [|vm_compute; reflexivity]. split; [done|]. by left.
Qed.

(** C25 fails always: no string append is reported as an error, whatever its arguments. *)
Theorem C25_refuted :
  forall e s req res kt k l old,
  env_ok e -> room s -> asks req CAppend kt (k :: l) -> ordinary k ->
  acts_on s kt k KTBytes KTString -> append_base s k KTString (VString old) ->
  is_err (dispatch e s req res).2 = false.
Proof. exact c25_false. Qed.
Print Assumptions C25_refuted.

(** C25, proved part: what is stored and answered is the old string followed by exactly those
    arguments that are UTF-8. Missing: the error for the others. *)
Theorem C25_partial :
  forall e s req res kt k l old,
  env_ok e -> room s -> asks req CAppend kt (k :: l) -> ordinary k ->
  acts_on s kt k KTBytes KTString -> append_base s k KTString (VString old) ->
  let new := VString (old ++ concat (filter (fun a => utf8_valid a = true) l)) in
  responds e res new (dispatch e s req res).2 /\
  st_keys (dispatch e s req res).1 = <[k := new]> (st_keys s).
Proof. exact c25_drops. Qed.
Print Assumptions C25_partial.

Example C25_nonvacuous :
  example_ok (lit "str") CAppend None [lit "str"; map n2b [255]%N; lit "ok"] /\
  utf8_valid (map n2b [255]%N) = false /\
  decoded (runs CAppend None [lit "str"; map n2b [255]%N; lit "ok"]).2
  = Some (PConcluded (RValue (VString (map n2b [195; 169; 33]%N ++ lit "ok")))).
Proof. split; [example|]. vm_compute. split; reflexivity. Qed.

(** C26: deleting a key answers it and removes exactly it. *)
Theorem C26_delete :
  forall e s req res k r v,
  env_ok e -> room s -> asks req CDelete None (k :: r) -> st_keys s !! k = Some v ->
  responds e res (VBytes k) (dispatch e s req res).2 /\
  st_keys (dispatch e s req res).1 = delete k (st_keys s).
Proof. exact c26_present. Qed.
Print Assumptions C26_delete.

(** C26: deleting it once more is refused. *)
Theorem C26_delete_again :
  forall e s req res k r v e' s' req' res' r',
  env_ok e -> room s -> asks req CDelete None (k :: r) -> st_keys s !! k = Some v ->
  env_ok e' -> room s' -> asks req' CDelete None (k :: r') ->
  st_keys s' = st_keys (dispatch e s req res).1 ->
  (dispatch e' s' req' res').2 = CErr EPreconditionFailed res'.
Proof. exact c26_again. Qed.
Print Assumptions C26_delete_again.

(** C26: deleting a missing key is refused and changes nothing. *)
Theorem C26_delete_missing :
  forall e s req res k r,
  env_ok e -> room s -> asks req CDelete None (k :: r) -> st_keys s !! k = None ->
  (dispatch e s req res).2 = CErr EPreconditionFailed res /\
  st_keys (dispatch e s req res).1 = st_keys s.
Proof. exact c26_absent. Qed.
Print Assumptions C26_delete_missing.

Example C26_nonvacuous :
  example_ok (lit "int") CDelete None [lit "int"] /\
  decoded (runs CDelete None [lit "int"]).2 = Some (PConcluded (RValue (VBytes (lit "int")))).
Proof. split; [example|]. vm_compute. reflexivity. Qed.

(** C27: renaming to a free name moves the value and answers the new name. *)
Theorem C27_rename :
  forall e s req res a b r v,
  env_ok e -> room s -> asks req CRename None (a :: b :: r) ->
  st_keys s !! a = Some v -> st_keys s !! b = None ->
  responds e res (VBytes b) (dispatch e s req res).2 /\
  st_keys (dispatch e s req res).1 = <[b := v]> (delete a (st_keys s)).
Proof. exact c27_moves. Qed.
Print Assumptions C27_rename.

(** C27: a missing source and a taken name (also the same name) are refused and nothing changes. *)
Theorem C27_rename_refused :
  forall e s req res a b r,
  env_ok e -> room s -> asks req CRename None (a :: b :: r) ->
  (st_keys s !! a = None ->
   (dispatch e s req res).2 = CErr EKeyNonexistent res /\
   st_keys (dispatch e s req res).1 = st_keys s) /\
  (is_Some (st_keys s !! a) -> is_Some (st_keys s !! b) ->
   (dispatch e s req res).2 = CErr EPreconditionFailed res /\
   st_keys (dispatch e s req res).1 = st_keys s).
Proof. exact c27_refuses. Qed.
Print Assumptions C27_rename_refused.

(** C27: renaming back restores the keyspace. *)
Theorem C27_rename_back :
  forall e s req res a b r v e' s' req' res' r',
  env_ok e -> room s -> asks req CRename None (a :: b :: r) ->
  st_keys s !! a = Some v -> st_keys s !! b = None ->
  env_ok e' -> room s' -> asks req' CRename None (b :: a :: r') ->
  st_keys s' = st_keys (dispatch e s req res).1 ->
  st_keys (dispatch e' s' req' res').1 = st_keys s.
Proof. exact c27_back. Qed.
Print Assumptions C27_rename_back.

Example C27_nonvacuous :
  example_ok (lit "int") CRename None [lit "int"; lit "n"] /\
  st_keys (runs CRename None [lit "int"; lit "n"]).1 !! lit "n" = Some (VInteger 41) /\
  (runs CRename None [lit "int"; lit "int"]).2 = CErr EPreconditionFailed [].
Proof. split; [example|]. vm_compute. split; reflexivity. Qed.

(** C28: Exists. *)
Theorem C28_exists :
  forall e s req res l,
  env_ok e -> room s -> asks req CExists None l -> l <> [] ->
  exists b, responds e res (VBoolean b) (dispatch e s req res).2 /\
    (b = true <-> forall k, k ∈ l -> is_Some (st_keys s !! k)).
Proof. exact c28_exists. Qed.
Print Assumptions C28_exists.

(** C28: Is. *)
Theorem C28_is :
  forall e s req res l t,
  env_ok e -> room s -> asks req CIs (Some t) l -> l <> [] ->
  exists b, responds e res (VBoolean b) (dispatch e s req res).2 /\
    (b = true <-> forall k, k ∈ l -> exists v, st_keys s !! k = Some v /\ kind v = t).
Proof. exact c28_is. Qed.
Print Assumptions C28_is.

Example C28_nonvacuous :
  example_ok (lit "int") CIs (Some KTInteger) [lit "int"; lit "max"] /\
  decoded (runs CIs (Some KTInteger) [lit "int"; lit "max"]).2
  = Some (PConcluded (RValue (VBoolean true))) /\
  decoded (runs CExists None [lit "int"; lit "nope"]).2
  = Some (PConcluded (RValue (VBoolean false))).
Proof. split; [example|]. vm_compute. split; reflexivity. Qed.

(** C29: Length answers the size of the value. *)
Theorem C29_length :
  forall e s req res kt k r t v n,
  env_ok e -> room s -> asks req CLength kt (k :: r) -> ordinary k ->
  acts_on s kt k KTBytes t -> st_keys s !! k = Some v -> kind v = t -> has_size v n ->
  responds e res (VInteger (Z.of_N n)) (dispatch e s req res).2.
Proof. exact c29_length. Qed.
Print Assumptions C29_length.

(** C29: every well-typed value of the other kinds has a size. *)
Theorem C29_every_value_has_a_size :
  forall v,
  value_wf v ->
  (exists n, has_size v n) \/ kind v = KTBoolean \/ kind v = KTFloat \/ kind v = KTInteger.
Proof. exact c29_always. Qed.
Print Assumptions C29_every_value_has_a_size.

(** C29: the errors. *)
Theorem C29_errors :
  forall e s req res kt k r t,
  env_ok e -> room s -> asks req CLength kt (k :: r) -> ordinary k ->
  acts_on s kt k KTBytes t ->
  (t = KTBoolean \/ t = KTFloat \/ t = KTInteger ->
   (dispatch e s req res).2 = CErr EKeyTypeInvalid res) /\
  (t <> KTBoolean -> t <> KTFloat -> t <> KTInteger ->
   (st_keys s !! k = None -> (dispatch e s req res).2 = CErr EKeyNonexistent res) /\
   (forall v, st_keys s !! k = Some v -> kind v <> t ->
    (dispatch e s req res).2 = CErr EKeyTypeDifferent res)).
Proof. exact c29_errors. Qed.
Print Assumptions C29_errors.

Example C29_nonvacuous :
  example_ok (lit "str") CLength None [lit "str"] /\
  decoded (runs CLength None [lit "str"]).2 = Some (PConcluded (RValue (VInteger 2))) /\
  (runs CLength None [lit "int"]).2 = CErr EKeyTypeInvalid [].
Proof. split; [example|]. vm_compute. split; reflexivity. Qed.

(** C30: the keys of the map, each once. *)
Theorem C30_keys :
  forall e s req res kt k r m,
  env_ok e -> room s -> asks req CKeys kt (k :: r) -> ordinary k ->
  (kt = None \/ kt = Some KTMap) -> st_keys s !! k = Some (VMap m) ->
  exists l, responds e res (VList l) (dispatch e s req res).2 /\ NoDup l /\
    forall x, x ∈ l <-> is_Some (m !! x).
Proof. exact c30. Qed.
Print Assumptions C30_keys.

(** C30: the errors. *)
Theorem C30_errors :
  forall e s req res kt k r t,
  env_ok e -> room s -> asks req CKeys kt (k :: r) -> ordinary k ->
  acts_on s kt k KTMap t ->
  (t <> KTMap -> (dispatch e s req res).2 = CErr EKeyTypeInvalid res) /\
  (t = KTMap -> st_keys s !! k = None ->
   (dispatch e s req res).2 = CErr EKeyNonexistent res) /\
  (t = KTMap -> forall v, st_keys s !! k = Some v -> kind v <> KTMap ->
   (dispatch e s req res).2 = CErr EKeyTypeDifferent res).
Proof. exact c30_errors. Qed.
Print Assumptions C30_errors.

Example C30_nonvacuous :
  example_ok (lit "map") CKeys None [lit "map"] /\
  exists l, decoded (runs CKeys None [lit "map"]).2 = Some (PConcluded (RValue (VList l)))
            /\ length l = 2.
Proof. split; [example|]. eexists. split; vm_compute; reflexivity. Qed.

(** C31: Echo. *)
Theorem C31_echo :
  forall e s req res kt l,
  env_ok e -> room s -> asks req CEcho kt l ->
  responds e res (VList l) (dispatch e s req res).2.
Proof. exact c31. Qed.
Print Assumptions C31_echo.

Example C31_nonvacuous :
  example_ok (lit "a") CEcho None [lit "a"; lit "b"] /\
  decoded (runs CEcho None [lit "a"; lit "b"]).2
  = Some (PConcluded (RValue (VList [lit "a"; lit "b"]))).
Proof. split; [example|]. vm_compute. reflexivity. Qed.

(** C34: in a release build only a guarded command on a reserved key panics, whatever the request. *)
Theorem C34_release :
  forall e s req res,
  well_typed (st_keys s) -> debug e = false ->
  (dispatch e s req res).2 = CPanic ->
  guarded_command (r_command req) = true /\ exists k, arg req 0 = Some k /\ reserved k.
Proof. exact c34_release. Qed.
Print Assumptions C34_release.

(** C34: a guarded command on a reserved key (or the empty key in a debug build) panics unless it
    answers an error first. *)
Theorem C34_reserved :
  forall e s req res c kt k r,
  env_ok e -> room s -> asks req c kt (k :: r) -> guarded_command c = true ->
  (reserved k \/ (debug e = true /\ k = [])) ->
  (dispatch e s req res).2 = CPanic \/ exists err, (dispatch e s req res).2 = CErr err res.
Proof. exact c34_reserved. Qed.
Print Assumptions C34_reserved.

(** C34: for Get, Increment and Decrement it always panics. *)
Theorem C34_reserved_always :
  forall e s req res c kt k r,
  env_ok e -> room s -> asks req c kt (k :: r) ->
  (c = CGet \/ c = CIncrement \/ c = CDecrement) ->
  (reserved k \/ (debug e = true /\ k = [])) ->
  (dispatch e s req res).2 = CPanic.
Proof. exact c34_always. Qed.
Print Assumptions C34_reserved_always.

(** C34: the panics of a debug build. *)
Theorem C34_debug :
  forall e s req res c kt l,
  env_ok e -> room s -> asks req c kt l -> (dispatch e s req res).2 = CPanic ->
  (exists k r, l = k :: r /\ guarded_command c = true /\
               (reserved k \/ (debug e = true /\ k = []))) \/
  (debug e = true /\ exists k n, changes_int c kt l k n /\ overflows (st_keys s) k n) \/
  (debug e = true /\ c <> CStats /\
   too_large (spec_command (debug e) ∅ c kt l (st_keys s)).2).
Proof. exact c34_debug. Qed.
Print Assumptions C34_debug.

Example C34_nonvacuous :
  reserved (lit "__hop__:x") /\
  (dispatch (env_std false) example_store (a_request CGet None [lit "__hop__:x"]) []).2 = CPanic /\
  (runs CIncrement None [lit "max"]).2 = CPanic.
Proof. split; [by exists (lit "x")|]. vm_compute. split; reflexivity. Qed.

(** C35 fails: reserved keys can be tested, their type read, and they can be deleted, or renamed to
    an ordinary key and read ... *)
Theorem C35_refuted :
  forall e s req res k r v,
  env_ok e -> room s -> reserved k -> st_keys s !! k = Some v ->
  (asks req CExists None [k] -> responds e res (VBoolean true) (dispatch e s req res).2) /\
  (asks req CType None [k] ->
   responds e res (VInteger (Z.of_N (key_type_to_u8 (kind v)))) (dispatch e s req res).2) /\
  (asks req CDelete None (k :: r) ->
   st_keys (dispatch e s req res).1 = delete k (st_keys s)) /\
  (forall k', asks req CRename None (k :: k' :: r) -> st_keys s !! k' = None ->
   st_keys (dispatch e s req res).1 !! k' = Some v).
Proof. exact c35_false. Qed.
Print Assumptions C35_refuted.

(** ... and created. *)
Theorem C35_refuted_create :
  forall e s req res a k r v,
  env_ok e -> room s -> reserved k -> asks req CRename None (a :: k :: r) ->
  st_keys s !! a = Some v -> st_keys s !! k = None ->
  st_keys (dispatch e s req res).1 !! k = Some v.
Proof. exact c35_creates. Qed.
Print Assumptions C35_refuted_create.

Example C35_refuted_nonvacuous :
  env_ok (env_std false) /\ room example_store /\ reserved (lit "__hop__:secret") /\
  st_keys example_store !! lit "__hop__:secret" = Some (VBytes (lit "s")) /\
  asks (a_request CDelete None [lit "__hop__:secret"]) CDelete None [lit "__hop__:secret"].
Proof.
  split_and!; [apply env_std_ok|apply store_of_room|by exists (lit "secret")|reflexivity|asked].
Qed.

(** C35, proved part: only Delete, Rename and Set can change a reserved key. Missing: those, and
    reading through Exists, Is and Type. *)
Theorem C35_partial :
  forall e s req res k,
  well_typed (st_keys s) -> reserved k ->
  r_command req <> CDelete -> r_command req <> CRename -> r_command req <> CSet ->
  st_keys (dispatch e s req res).1 !! k = st_keys s !! k.
Proof. exact c35_unchanged. Qed.
Print Assumptions C35_partial.

(** C35, proved part: Set never stores a value at a reserved key; but it may remove the one there. *)
Theorem C35_partial_set :
  forall e s req res k r kt,
  env_ok e -> room s -> asks req CSet kt (k :: r) -> reserved k ->
  (st_keys (dispatch e s req res).1 = st_keys s /\
   exists err, (dispatch e s req res).2 = CErr err res) \/
  (st_keys (dispatch e s req res).1 = delete k (st_keys s) /\
   (dispatch e s req res).2 = CPanic).
Proof. exact c35_set. Qed.
Print Assumptions C35_partial_set.

(** C35, proved part, reading: a request that is [discreet] has the same outcome, and leaves the same
    ordinary keys, whatever is stored at reserved keys. Missing: the other requests. *)
Theorem C35_discreet_partial :
  forall e s s' req res,
  discreet req = true -> same_outside s s' ->
  (dispatch e s req res).2 = (dispatch e s' req res).2 /\
  same_outside (dispatch e s req res).1 (dispatch e s' req res).1.
Proof. exact c35_discreet. Qed.
Print Assumptions C35_discreet_partial.

(** C35 fails for requests that leave the type open: Append, Keys and Length panic on a reserved key
    that is absent and answer an error on one that holds an integer. *)
Theorem C35_refuted_type :
  forall e s req res c k l,
  env_ok e -> room s -> reserved k -> c ∈ [CAppend; CKeys; CLength] ->
  asks req c None (k :: l) -> (c = CAppend -> l <> []) ->
  (st_keys s !! k = None -> (dispatch e s req res).2 = CPanic) /\
  (forall v, st_keys s !! k = Some v -> kind v = KTInteger ->
   exists err, (dispatch e s req res).2 = CErr err res).
Proof. exact c35_type_shows. Qed.
Print Assumptions C35_refuted_type.

Example C35_discreet_nonvacuous :
  let other := store_of [(lit "int", VInteger 41); (lit "__hop__:secret", VInteger 7)] in
  let one := store_of [(lit "int", VInteger 41)] in
  same_outside one other /\ st_keys other !! lit "__hop__:secret" <> st_keys one !! lit "__hop__:secret" /\
  discreet (a_request CGet None [lit "__hop__:secret"]) = true /\
  discreet (a_request CLength None [lit "__hop__:secret"]) = false /\
  (dispatch (env_std false) one (a_request CLength None [lit "__hop__:secret"]) []).2 = CPanic /\
  (dispatch (env_std false) other (a_request CLength None [lit "__hop__:secret"]) []).2
  = CErr EKeyTypeInvalid [].
Proof.
  split; [|vm_compute; split_and!; done || discriminate].
  split; [done|]. intros k Hk. cbn.
  destruct (decide (k = lit "__hop__:secret")) as [->|Hne]; [destruct Hk; by exists (lit "secret")|].
  destruct (decide (k = lit "int")) as [->|Hi]; [done|].
  unfold store_of. cbn. by rewrite !lookup_insert_ne by done.
Qed.

(** C72, proved part: a command other than Set that panics leaves the keyspace as it was, or has done all
    it was asked to. Missing: Set, see below. *)
Theorem C72_partial :
  forall e s req res l stats,
  env_ok e -> carries req l -> r_command req <> CSet -> (dispatch e s req res).2 = CPanic ->
  let '(ks, a) := spec_command (debug e) stats (r_command req) (r_key_type req) l (st_keys s) in
  let left := st_keys (dispatch e s req res).1 in
  left = st_keys s \/ (a <> ACrash /\ left = ks).
Proof. exact c72_all_or_nothing. Qed.
Print Assumptions C72_partial.

(** C72 for Set: exactly what a panic leaves. Besides the two good cases, the old value may be gone, or
    an empty map or set stored. *)
Theorem C72_set_partial :
  forall e s req res k l kt,
  env_ok e -> room s -> asks req CSet kt (k :: l) -> (dispatch e s req res).2 = CPanic ->
  exists v, value_of (type_or (st_keys s) kt k KTBytes) l = Some v /\
  let left := st_keys (dispatch e s req res).1 in
  (left = delete k (st_keys s) /\ bad_key (debug e) k = true) \/
  (left = <[k := v]> (st_keys s) /\ debug e = true) \/
  (left = <[k := emptied v]> (st_keys s) /\ debug e = true).
Proof. exact c72_set. Qed.
Print Assumptions C72_set_partial.

(** C72 fails: Set on a reserved key panics, and the value that was there is gone. *)
Theorem C72_refuted :
  forall e s req res k l kt v v',
  env_ok e -> room s -> asks req CSet kt (k :: l) -> reserved k ->
  value_of (type_or (st_keys s) kt k KTBytes) l = Some v' -> st_keys s !! k = Some v ->
  (dispatch e s req res).2 = CPanic /\ st_keys (dispatch e s req res).1 !! k = None.
Proof. exact c72_loses. Qed.
Print Assumptions C72_refuted.

(** C72 fails: when a Set of a map or set panics on an ordinary key, an empty map or set is left. *)
Theorem C72_refuted_half :
  forall e s req res k l t,
  env_ok e -> room s -> asks req CSet (Some t) (k :: l) -> ordinary k ->
  t = KTMap \/ t = KTSet -> (dispatch e s req res).2 = CPanic ->
  st_keys (dispatch e s req res).1 = <[k := if decide (t = KTMap) then VMap ∅ else VSet ∅]> (st_keys s).
Proof. exact c72_half. Qed.
Print Assumptions C72_refuted_half.

(** And that happens, in a debug build, with a value of 2^32 - 1 bytes. *)
Theorem C72_refuted_half_happens :
  forall e s k v res,
  env_ok e -> room s -> debug e = true -> ordinary k -> lenN v = (2 ^ 32 - 1)%N ->
  let req := a_request CSet (Some KTMap) [k; lit "x"; v] in
  asks req CSet (Some KTMap) [k; lit "x"; v] /\ (dispatch e s req res).2 = CPanic.
Proof. exact c72_half_happens. Qed.
Print Assumptions C72_refuted_half_happens.

Example C72_nonvacuous :
  let crash c kt l := dispatch (env_std true) example_store (a_request c kt l) [] in
  (crash CIncrement None [lit "max"]).2 = CPanic /\
  st_keys (crash CIncrement None [lit "max"]).1 !! lit "max" = st_keys example_store !! lit "max" /\
  (crash CSet None [lit "__hop__:secret"; lit "x"]).2 = CPanic /\
  st_keys example_store !! lit "__hop__:secret" = Some (VBytes (lit "s")) /\
  st_keys (crash CSet None [lit "__hop__:secret"; lit "x"]).1 !! lit "__hop__:secret" = None.
Proof. vm_compute. split_and!; reflexivity. Qed.
Example C72_half_nonvacuous : exists v : bytes, lenN v = (2 ^ 32 - 1)%N /\ ordinary (lit "k").
Proof.
  exists (replicate (N.to_nat (2 ^ 32 - 1)) x00). split.
  - unfold lenN. rewrite replicate_length. apply N2Nat.id.
  - split; [done|]. intros [r Hr]. discriminate Hr.
Qed.
