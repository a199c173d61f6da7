(** What the documentation of the client's methods says (client/src/lib.rs:83-462), for C105. *)
From Verif Require Import Bytes Utf8 Float64 Value CommandId Request Response Metrics Prog Commands
  EngineSpec WireSpec HistorySpec Client ClientSpec.
From stdpp Require Import gmap list.
From Coq Require Import NArith ZArith.

(** The call returned an error. *)
Definition errs (r : client_res reply) : Prop := exists err, r = RErr err.

(** "Increments a float or integer key by one.  Returns the new value on success.  If the key does
    not exist, an integer key is created with a value of 0 and then incremented by 1", and the
    same for decrements; client/src/lib.rs:111-118, 234-239. *)
Definition steps_by_one (k : bytes) (step : Z -> Z) (fstep : N -> N)
  (ks : keyspace) (r : client_res reply) (ks' : keyspace) : Prop :=
  let becomes v := r = ROk (RpValue v) /\ ks' = <[k := v]> ks in
  match ks !! k with
  | None => becomes (VInteger (step 0%Z))
  | Some (VInteger z) => becomes (VInteger (step z))
  | Some (VFloat f) => becomes (VFloat (fstep f))
  | Some _ => True
  end.

(** The keys are [ks], the call [c] returns [r], and then the keys are [ks']: as documented? *)
Definition as_documented (ks : keyspace) (c : client_call) (r : client_res reply) (ks' : keyspace)
  : Prop :=
  match c with
  (* "If the key does not exist then an error is returned.  Returns the new value on success." 83-90 *)
  | KAppend k v | KAppendTyped k v =>
    (ks !! k = None -> errs r) /\
    (forall p, r = ROk p -> exists v', p = RpValue v' /\ ks' !! k = Some v')
  | KDecrement k None => steps_by_one k (fun z => z - 1)%Z (fun f => f64_sub f f64_one) ks r ks'
  | KIncrement k None => steps_by_one k (fun z => z + 1)%Z (fun f => f64_add f f64_one) ks r ks'
  (* "Delete a key by its name if it exists.  Returns the deleted key name on success" 123-125 *)
  | KDelete k =>
    is_Some (ks !! k) -> r = ROk (RpBytes k) /\ ks' = delete k ks
  (* "Returns the input content." 146-148 *)
  | KEcho b => r = ROk (RpItems [b])
  (* "Returns `true` if all of the keys exist, or `false` if at least one of them does not." 153-156 *)
  | KExists l =>
    l <> [] ->
    ((forall k, k ∈ l -> is_Some (ks !! k)) -> r = ROk (RpBool true)) /\
    (forall k, k ∈ l -> ks !! k = None -> r = ROk (RpBool false))
  (* "Get a key's value." 184-189 *)
  | KGet k => forall v, ks !! k = Some v -> r = ROk (RpValue v)
  | KGetTyped k t => forall v, ks !! k = Some v -> kind v = t -> r = ROk (RpValue v)
  (* "Returns `true` if all of the keys both exist and are the specified key type, or `false` if at
     least one of the keys does not exist or is of a different key type." 272-276 *)
  | KIs t l =>
    l <> [] ->
    ((forall k, k ∈ l -> exists v, ks !! k = Some v /\ kind v = t) -> r = ROk (RpBool true)) /\
    (forall k, k ∈ l -> (forall v, ks !! k = Some v -> kind v <> t) -> r = ROk (RpBool false))
  (* "Retrieve the type of a key." 311 *)
  | KKeyType k => forall v, ks !! k = Some v -> r = ROk (RpType (kind v))
  (* "Returns the list of keys on success." 329-331 *)
  | KKeys k => forall m, ks !! k = Some (VMap m) -> exists l, r = ROk (RpItems l) /\ l ≡ₚ elements (dom m)
  (* "This command only works with bytes, lists, and strings by default." 349-355 *)
  | KLength k None =>
    forall v, ks !! k = Some v ->
    match v with
    | VBytes _ | VList _ | VString _ => forall n, has_size v n -> r = ROk (RpInt (Z.of_N n))
    | _ => errs r
    end
  (* "to only retrieve the length if the key is of a certain type, use the methods" 351-353 *)
  | KLength k (Some t) => forall v, ks !! k = Some v -> kind v <> t -> errs r
  (* "Rename a key to a new key name, if the new key name doesn't already exist.  Returns the new key
     value on success as a confirmation." 394-397 *)
  | KRename a b =>
    (is_Some (ks !! b) -> errs r /\ ks' = ks) /\
    (forall v, ks !! a = Some v -> ks !! b = None ->
     r = ROk (RpBytes b) /\ ks' = <[b := v]> (delete a ks))
  (* "Set a key to a new value, overriding it regardless of whether it exists and its current key
     type.  Returns the new value on success as confirmation." 419-422 *)
  | KSet k v | KSetTyped k v => r = ROk (RpValue v) /\ ks' = <[k := v]> ks
  (* the methods for amounts and steps of a type have no documentation of their effect; statistics
     are C66 *)
  | _ => True
  end.

(** The calls on which the documentation is wrong. *)
Definition misdescribed (ks : keyspace) (c : client_call) : bool :=
  match c with
  | KAppend k _ | KAppendTyped k _ => bool_decide (ks !! k = None)
  | KIncrement k None | KDecrement k None =>
    match ks !! k with Some (VFloat _) => true | _ => false end
  | KLength k None => match ks !! k with Some (VMap _) | Some (VSet _) => true | _ => false end
  | _ => false
  end.
