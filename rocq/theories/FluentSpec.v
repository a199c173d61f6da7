(** What a chain of methods asks for, read off the chain. *)
From Coq Require Import String.
From Verif Require Import Bytes Value Metrics Prog Commands HistorySpec Client ClientSpec Fluent.
From stdpp Require Import gmap list.
From Coq Require Import NArith ZArith.

(** Where a chain has got to: it needs another method before it can be awaited, it can be awaited and
    asks for a call, it was refused, or it does not compile. *)
Inductive stage := Waits | Asks (c : client_call) | Refused (err : config_error) | Ill.

(** The last of the settings, if all the methods are settings of one kind. *)
Definition settings {A} (f : method -> option A) (ms : list method) (g : option A -> client_call)
  : stage :=
  match mapM f ms with Some l => Asks (g (last l)) | None => Ill end.

Definition by_int (m : method) : option Z := match m with MByInt z => Some z | _ => None end.
Definition by_float (m : method) : option N := match m with MByFloat x => Some x | _ => None end.
Definition has_length (m : method) : option key_type :=
  match m with
  | MAs KTBytes => Some KTBytes | MAs KTList => Some KTList | MAs KTMap => Some KTMap
  | MAs KTSet => Some KTSet | MAs KTString => Some KTString
  | _ => None
  end.

Definition one_to_255 (l : list bytes) (f : list bytes -> client_call) : stage :=
  match l with
  | [] => Refused NoKeys
  | _ => if (lenN l <=? 255)%N then Asks (f l) else Refused TooManyKeys
  end.

Definition asks (n : entry) (ms : list method) : stage :=
  match n, ms with
  | (NAppend _ | NSet _ | NExists | NIs _), [] => Waits
  | NAppend k, [MBytes b] => Asks (KAppendTyped k (VBytes b))
  | NAppend k, [MList l] => Asks (KAppendTyped k (VList l))
  | NAppend k, [MString s] => Asks (KAppendTyped k (VString s))
  | NSet k, [MBool b] => Asks (KSetTyped k (VBoolean b))
  | NSet k, [MBytes b] => Asks (KSetTyped k (VBytes b))
  | NSet k, [MFloat x] => Asks (KSetTyped k (VFloat x))
  | NSet k, [MInt z] => Asks (KSetTyped k (VInteger z))
  | NSet k, [MList l] => Asks (KSetTyped k (VList l))
  | NSet k, [MMap l] => Asks (KSetTyped k (VMap (list_to_map (reverse l))))  (* the last pair counts *)
  | NSet k, [MSet l] => Asks (KSetTyped k (VSet (list_to_set l)))
  | NSet k, [MString s] => Asks (KSetTyped k (VString s))
  | NSet k, [MValue v] => Asks (KSet k v)
  | NExists, [MKey k] => Asks (KExists [k])
  | NExists, [MKeys l] => one_to_255 l KExists
  | NIs t, [MKey k] => Asks (KIs t [k])
  | NIs t, [MKeys l] => one_to_255 l (KIs t)
  | NGet k, [] => Asks (KGet k)
  | NGet k, [MAs t] => Asks (KGetTyped k t)
  | NIncrement k, [] => Asks (KIncrement k None)
  | NIncrement k, MAs KTInteger :: ms => settings by_int ms (KIncrementInt k)
  | NIncrement k, MAs KTFloat :: ms => settings by_float ms (KIncrementFloat k)
  | NDecrement k, [] => Asks (KDecrement k None)
  | NDecrement k, MAs KTInteger :: ms => settings by_int ms (KDecrementInt k)
  | NDecrement k, MAs KTFloat :: ms => settings by_float ms (KDecrementFloat k)
  | NLength k, ms => settings has_length ms (KLength k)
  | NDelete k, [] => Asks (KDelete k)
  | NEcho b, [] => Asks (KEcho b)
  | NKeyType k, [] => Asks (KKeyType k)
  | NKeys k, [] => Asks (KKeys k)
  | NRename a b, [] => Asks (KRename a b)
  | NStats, [] => Asks KStats
  | _, _ => Ill
  end.

(** The methods that turn a request that can be awaited into another. *)
Definition turns (n : entry) (m : method) : bool :=
  match n, m with (NGet _ | NIncrement _ | NDecrement _), MAs _ => true | _, _ => false end.

(** ** Histories *)

Definition started (h : list event) : list entry :=
  omap (fun ev => match ev with FStart n => Some n | _ => None end) h.
Definition methods_of (h : list event) (i : nat) : list method :=
  omap (fun ev => match ev with FCall j m => if (i =? j)%nat then Some m else None | _ => None end) h.
Definition was_polled (i : nat) (h : list event) : bool :=
  existsb (fun ev => match ev with FPoll _ j => (i =? j)%nat | _ => false end) h.

(** The chain of the [i]th request so far. *)
Definition chain (h : list event) (i : nat) : stage :=
  match started h !! i with Some n => asks n (methods_of h i) | None => Ill end.

(** After [ev] the [i]th request is no longer there: dropped, refused, or turned into another type
    after it was polled. *)
Definition ends_with (h : list event) (ev : event) (i : nat) : Prop :=
  match ev with
  | FDrop j => i = j
  | FCall j m => i = j /\
      ((exists n, started h !! i = Some n /\ turns n m = true /\ was_polled i h = true) \/
       exists err, chain (h ++ [ev]) i = Refused err)
  | _ => False
  end.
Definition gone (h : list event) (i : nat) : Prop :=
  exists j ev, h !! j = Some ev /\ ends_with (take j h) ev i.

(** The program compiles: it only uses requests it has, calls methods they have and awaits
    futures. *)
Definition compiles (h : list event) : Prop :=
  forall j ev, h !! j = Some ev ->
    match ev with
    | FStart _ => True
    | FDrop i => (i < length (started (take j h)))%nat /\ ~ gone (take j h) i
    | FCall i m => ~ gone (take j h) i /\ chain (take j h ++ [ev]) i <> Ill
    | FPoll _ i => ~ gone (take j h) i /\ exists c, chain (take j h) i = Asks c
    end.

(** The call made by event [ev] after [h]: the first poll of a request makes the call its chain asks
    for. *)
Definition call_made (h : list event) (ev : event) : option (env * client_call) :=
  match ev with
  | FPoll e i =>
    if was_polled i h then None
    else match chain h i with Asks c => Some (e, c) | _ => None end
  | _ => None
  end.
Definition calls_made (h : list event) : list (env * client_call) :=
  omap (fun j => h !! j ≫= call_made (take j h)) (seq 0 (length h)).

(** What is seen at [ev] after [h], when the store was [s] at first. *)
Definition sees (h : list event) (ev : event) (s : store) : sight :=
  match ev with
  | FStart _ | FDrop _ => GNothing
  | FPoll e i =>
    match call_made h ev with
    | Some (e, c) =>
      match (mem_call e (mem_calls (calls_made h) s).1 c).2 with RPanic => GPanic | r => GReady r end
    | None => GPanic
    end
  | FCall i m =>
    match started h !! i, chain (h ++ [ev]) i with
    | Some n, Refused err => GRefused err
    | Some n, _ => if turns n m && was_polled i h then GPanic else GNothing
    | None, _ => GNothing
    end
  end.
