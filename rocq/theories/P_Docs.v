(** The memory client and its documentation: C105.
    The client is [Client]; what its documentation says is [as_documented] in [DocSpec]. *)
From Coq Require Import String.
From Verif Require Import Bytes BytesFacts Utf8 Float64 Value CommandId Request Response Metrics Prog Commands
  EngineSpec WireSpec RequestSpec HistorySpec EngineProps Client ClientSpec ClientFacts ClientProps
  DocSpec DocFacts.
From stdpp Require Import gmap list.
From Coq Require Import NArith ZArith.

Definition rel : env := env_std false.
Definition key (x : string) : bytes := lit x.

(** C105 is false: appending to a key that does not exist is documented to fail, and creates it; a step
    without a type is documented for float keys, and is refused; the length of a map is documented to
    need its type, and is answered. *)
Theorem C105_refuted :
  let x := key "x" in
  let two := VMap (list_to_map [(key "a", key "b"); (key "c", key "d")]) in
  (mem_calls [(rel, KAppend x (VString (key "v"))); (rel, KGet x)] store_new).2
    = [ROk (RpValue (VString (key "v"))); ROk (RpValue (VString (key "v")))] /\
  (mem_calls [(rel, KSet x (VFloat f64_one)); (rel, KIncrement x None)] store_new).2
    = [ROk (RpValue (VFloat f64_one)); RErr (CERunningCommand EKeyTypeDifferent)] /\
  last (mem_calls [(rel, KSet x two); (rel, KLength x None)] store_new).2 = Some (ROk (RpInt 2)).
Proof. vm_compute. split_and!; reflexivity. Qed.
Print Assumptions C105_refuted.

(** C105: after every history of calls, each of these calls contradicts its documentation, and this is
    what it does instead. *)
Theorem C105_misdescribed :
  forall h e c,
  (lenN h + 1 < 2 ^ 63)%N -> all_within (h ++ [(e, c)]) ideal_new -> refused c = None ->
  let s := (mem_calls h store_new).1 in
  let '(s', r) := mem_call e s c in
  misdescribed (st_keys s) c = true ->
  match c with
  | KAppend k v | KAppendTyped k v => r = ROk (RpValue v) /\ st_keys s' = <[k := v]> (st_keys s)
  | KIncrement _ _ | KDecrement _ _ =>
    r = RErr (CERunningCommand EKeyTypeDifferent) /\ st_keys s' = st_keys s
  | KLength k _ => forall v n, st_keys s !! k = Some v -> has_size v n -> r = ROk (RpInt (Z.of_N n))
  | _ => False
  end /\ ~ as_documented (st_keys s) c r (st_keys s').
Proof. exact c105_misdescribed. Qed.
Print Assumptions C105_misdescribed.

(** C105: every other documented call does what its documentation says, after every history of calls
    within the limits of C42.
    Missing: the calls above, and those outside of the limits. *)
Theorem C105_partial :
  forall h e c,
  (lenN h + 1 < 2 ^ 63)%N -> all_within (h ++ [(e, c)]) ideal_new -> refused c = None ->
  let s := (mem_calls h store_new).1 in
  let '(s', r) := mem_call e s c in
  misdescribed (st_keys s) c = false -> as_documented (st_keys s) c r (st_keys s').
Proof. exact c105_described. Qed.
Print Assumptions C105_partial.

Definition before : list client_call :=
  [KSet (key "n") (VInteger 40); KSet (key "f") (VFloat f64_one);
   KSet (key "m") (VMap (list_to_map [(key "a", key "b"); (key "c", key "d")]));
   KSet (key "l") (VList [key "a"; key "b"]); KSet (key "s") (VString (key "text"))].
Definition documented_calls : list client_call :=
  [KAppend (key "l") (VList [key "c"]); KDecrement (key "n") None; KIncrement (key "new") None;
   KDelete (key "s"); KEcho (key "hi"); KExists [key "n"; key "zz"]; KGet (key "m"); KGetTyped (key "f") KTFloat;
   KIs KTInteger [key "n"]; KKeyType (key "m"); KKeys (key "m"); KLength (key "s") None;
   KLength (key "s") (Some KTList); KRename (key "n") (key "n2"); KSet (key "n") (VString (key "v"))].
Definition wrongly_documented : list client_call :=
  [KAppend (key "new") (VList [key "c"]); KAppendTyped (key "new") (VString (key "c")); KDecrement (key "f") None;
   KIncrement (key "f") None; KLength (key "m") None].
Example C105_nonvacuous :
  let h := map (fun c => (rel, c)) before in
  let ks := st_keys (mem_calls h store_new).1 in
  Forall (fun c => all_within (h ++ [(rel, c)]) ideal_new /\ refused c = None) (documented_calls ++ wrongly_documented) /\
  forallb (fun c => negb (misdescribed ks c)) documented_calls = true /\
  forallb (misdescribed ks) wrongly_documented = true.
Proof.
  cbn zeta. split_and!; [|vm_compute; reflexivity|vm_compute; reflexivity].
  assert (H : forallb (fun c => ok_calls (before ++ [c]) ideal_new &&
    match refused c with None => true | Some _ => false end) (documented_calls ++ wrongly_documented) = true)
    by (vm_compute; reflexivity).
  apply Forall_forall. intros c Hc. rewrite forallb_forall in H.
  apply elem_of_list_In in Hc. apply H in Hc. apply andb_prop in Hc as [H1 H2].
  split; [|by destruct (refused c)].
  pose proof (ok_calls_within rel (before ++ [c]) (env_std_ok false) ideal_new H1) as Hw.
  by rewrite map_app in Hw.
Qed.
