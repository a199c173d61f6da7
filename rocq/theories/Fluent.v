(** The methods of a client and of the requests they return, called one after the other and mixed
    with polls: client/src/lib.rs:107-465 and client/src/request/**.
    [client.increment(k).int().by(5)] makes an [Increment], turns it into an [IncrementInteger] and
    sets its amount; only polling (awaiting) it makes a call, see [Futures]. *)
From Coq Require Import String.
From Verif Require Import Bytes Value Metrics Prog Commands HistorySpec Client ClientSpec Futures.
From stdpp Require Import gmap list.
From Coq Require Import NArith ZArith.

(** The methods of [Client], client/src/lib.rs:107-465 *)
Inductive entry :=
| NAppend (k : bytes) | NDecrement (k : bytes) | NDelete (k : bytes) | NEcho (content : bytes)
| NExists | NGet (k : bytes) | NIncrement (k : bytes) | NIs (t : key_type) | NKeyType (k : bytes)
| NKeys (k : bytes) | NLength (k : bytes) | NRename (from to : bytes) | NSet (k : bytes) | NStats.

(** The methods of requests.  [MAs t]: [bytes()], [list()], [int()] and so on, without arguments
    (get/mod.rs:78-267, increment/mod.rs:33-39, length.rs:31-70); [MBool b] ... [MString s]: the
    same names with a value (set/mod.rs:71-253, append/mod.rs:41-61); [MValue]: set/mod.rs:278;
    [MByInt], [MByFloat]: [by] (increment_int.rs:33, increment_float.rs:33); [MKey], [MKeys]:
    exists.rs:60-94, is.rs:62-96.  All in client/src/request/mod.rs:1-33. *)
Inductive method :=
| MAs (t : key_type)
| MBool (b : bool) | MBytes (b : bytes) | MFloat (x : N) | MInt (z : Z) | MList (l : list bytes)
| MMap (l : list (bytes * bytes)) | MSet (l : list bytes) | MString (s : bytes) | MValue (v : value)
| MByInt (z : Z) | MByFloat (x : N)
| MKey (k : bytes) | MKeys (l : list bytes).

(** The types of requests that have methods of their own; the others are [TPlain];
    client/src/request/mod.rs:17-29. *)
Inductive rtype := TGet | TIncrement | TIncrementInteger | TIncrementFloat
| TDecrement | TDecrementInteger | TDecrementFloat | TLength | TPlain.

(** What a program holds: a request that cannot be awaited yet, or a future;
    client/src/request/append/mod.rs:12-15, set/mod.rs:53-56, exists.rs:46-48, is.rs:47-50.
    Simplified: the amount of [IncrementInteger] and its siblings and the kind of [Length] are
    kept with the arguments that polling takes.  Left in the struct, nothing reads them any more:
    client/src/request/increment/increment_int.rs:46-64, length.rs:79-93. *)
Inductive object :=
| OAppend (k : bytes) | OSet (k : bytes) | OExists | OIs (t : key_type)
| OFuture (ty : rtype) (q : request).

(** client/src/lib.rs:107-465 *)
Definition start (n : entry) : object :=
  match n with
  | NAppend k => OAppend k
  | NDecrement k => OFuture TDecrement (request_new (KDecrement k None))
  | NDelete k => OFuture TPlain (request_new (KDelete k))
  | NEcho b => OFuture TPlain (request_new (KEcho b))
  | NExists => OExists
  | NGet k => OFuture TGet (request_new (KGet k))
  | NIncrement k => OFuture TIncrement (request_new (KIncrement k None))
  | NIs t => OIs t
  | NKeyType k => OFuture TPlain (request_new (KKeyType k))
  | NKeys k => OFuture TPlain (request_new (KKeys k))
  | NLength k => OFuture TLength (request_new (KLength k None))
  | NRename a b => OFuture TPlain (request_new (KRename a b))
  | NSet k => OSet k
  | NStats => OFuture TPlain (request_new KStats)
  end.

(** What calling a method does.  Each takes the request by value, so it is gone when the method
    returns an error or panics; [NoMethod]: the program does not compile.
    client/src/request/exists.rs:81-94, get/mod.rs:102-104. *)
Inductive called := Gives (o : object) | Refuses (err : config_error) | Blows | NoMethod.

(** [DashMap::from_iter] inserts one pair after the other; client/src/request/set/mod.rs:189-195. *)
Definition map_from_iter (l : list (bytes * bytes)) : gmap bytes bytes :=
  fold_left (fun m kv => <[kv.1 := kv.2]> m) l ∅.

(** [HashSet::from_iter], client/src/request/set/mod.rs:222-224, set_set.rs:49. *)
Definition set_from_iter (l : list bytes) : gset bytes :=
  fold_left (fun s x => {[x]} ∪ s) l ∅.

(** A future of the plain kind, e.g. client/src/request/set/set_boolean.rs:24-31. *)
Definition plain (c : client_call) : called := Gives (OFuture TPlain (request_new c)).

(** [Exists::keys], [Is::keys]: client/src/request/exists.rs:81-94, is.rs:83-96 *)
Definition with_checked (l : list bytes) (f : list bytes -> client_call) : called :=
  match checked_keys l with inl err => Refuses err | inr l => plain (f l) end.

(** [self.backend.unwrap(), self.key.unwrap()]: panics once a poll has taken them;
    client/src/request/get/mod.rs:102-104, increment/mod.rs:33-39. *)
Definition convert (q : request) (ty : rtype) (f : client_call -> client_call) : called :=
  match rq_args q with
  | Some c => Gives (OFuture ty (request_new (f c)))
  | None => Blows
  end.

(** Setting a field: client/src/request/increment/increment_int.rs:33-37, length.rs:31-35. *)
Definition adjust (q : request) (ty : rtype) (f : client_call -> client_call) : called :=
  Gives (OFuture ty (Request (f <$> rq_args q) (rq_fut q))).

(** The key in a request, client/src/request/increment/mod.rs:17-22 *)
Definition key_of (c : client_call) : bytes :=
  match c with
  | KGet k | KIncrement k _ | KDecrement k _ | KIncrementInt k _ | KIncrementFloat k _
  | KDecrementInt k _ | KDecrementFloat k _ | KLength k _ => k
  | _ => []
  end.

(** One method call on one request; the files named at [method]:
    client/src/request/append/mod.rs:41-61, set/mod.rs:71-280, exists.rs:60-94, is.rs:62-96,
    get/mod.rs:78-269, increment/mod.rs:33-39, decrement/mod.rs:31-37, length.rs:31-70. *)
Definition call_method (o : object) (m : method) : called :=
  match o, m with
  | OAppend k, MBytes b => plain (KAppendTyped k (VBytes b))
  | OAppend k, MList l => plain (KAppendTyped k (VList l))
  | OAppend k, MString s => plain (KAppendTyped k (VString s))
  | OSet k, MBool b => plain (KSetTyped k (VBoolean b))
  | OSet k, MBytes b => plain (KSetTyped k (VBytes b))
  | OSet k, MFloat x => plain (KSetTyped k (VFloat x))
  | OSet k, MInt z => plain (KSetTyped k (VInteger z))
  | OSet k, MList l => plain (KSetTyped k (VList l))
  | OSet k, MMap l => plain (KSetTyped k (VMap (map_from_iter l)))
  | OSet k, MSet l => plain (KSetTyped k (VSet (set_from_iter l)))
  | OSet k, MString s => plain (KSetTyped k (VString s))
  | OSet k, MValue v => plain (KSet k v)
  | OExists, MKey k => plain (KExists [k])
  | OExists, MKeys l => with_checked l KExists
  | OIs t, MKey k => plain (KIs t [k])
  | OIs t, MKeys l => with_checked l (KIs t)
  | OFuture TGet q, MAs t => convert q TPlain (fun c => KGetTyped (key_of c) t)
  | OFuture TIncrement q, MAs KTInteger =>
    convert q TIncrementInteger (fun c => KIncrementInt (key_of c) None)
  | OFuture TIncrement q, MAs KTFloat =>
    convert q TIncrementFloat (fun c => KIncrementFloat (key_of c) None)
  | OFuture TDecrement q, MAs KTInteger =>
    convert q TDecrementInteger (fun c => KDecrementInt (key_of c) None)
  | OFuture TDecrement q, MAs KTFloat =>
    convert q TDecrementFloat (fun c => KDecrementFloat (key_of c) None)
  | OFuture TIncrementInteger q, MByInt z =>
    adjust q TIncrementInteger (fun c => KIncrementInt (key_of c) (Some z))
  | OFuture TIncrementFloat q, MByFloat x =>
    adjust q TIncrementFloat (fun c => KIncrementFloat (key_of c) (Some x))
  | OFuture TDecrementInteger q, MByInt z =>
    adjust q TDecrementInteger (fun c => KDecrementInt (key_of c) (Some z))
  | OFuture TDecrementFloat q, MByFloat x =>
    adjust q TDecrementFloat (fun c => KDecrementFloat (key_of c) (Some x))
  | OFuture TLength q, MAs ((KTBytes | KTList | KTMap | KTSet | KTString) as t) =>
    adjust q TLength (fun c => KLength (key_of c) (Some t))
  | _, _ => NoMethod
  end.

(** What a program does: call a method of the client, a method of the [i]th request it was given, poll
    that request, drop it; client/src/lib.rs:107-465. *)
Inductive event :=
| FStart (n : entry) | FCall (i : nat) (m : method) | FPoll (e : env) (i : nat) | FDrop (i : nat).

(** What it sees, client/src/request/exists.rs:81-94, get/mod.rs:277-289. *)
Inductive sight :=
| GNothing | GReady (r : client_res reply) | GPanic | GRefused (err : config_error).

(** The program, its requests and its client, client/src/lib.rs:23-31. *)
Record fluent := Fluent { fl_store : store; fl_objects : list (option object);
                          fl_seen : list sight }.

(** One event.  What does not compile (an unknown method, awaiting what is not a future, using what
    was moved) does nothing; client/src/lib.rs:107-465, client/src/request/mod.rs:1-33. *)
Definition fluent_step (p : fluent) (ev : event) : fluent :=
  let '(Fluent s os out) := p in
  match ev with
  | FStart n => Fluent s (os ++ [Some (start n)]) (out ++ [GNothing])
  | FCall i m =>
    match os !! i with
    | Some (Some o) =>
      match call_method o m with
      | Gives o => Fluent s (<[i := Some o]> os) (out ++ [GNothing])
      | Refuses err => Fluent s (<[i := None]> os) (out ++ [GRefused err])
      | Blows => Fluent s (<[i := None]> os) (out ++ [GPanic])
      | NoMethod => Fluent s os (out ++ [GNothing])
      end
    | _ => Fluent s os (out ++ [GNothing])
    end
  | FPoll e i =>
    match os !! i with
    | Some (Some (OFuture ty q)) =>
      let '(s, q, r) := poll e s q in
      Fluent s (<[i := Some (OFuture ty q)]> os)
        (out ++ [match r with PollReady r => GReady r | PollPanics => GPanic end])
    | _ => Fluent s os (out ++ [GNothing])
    end
  | FDrop i => Fluent s (<[i := None]> os) (out ++ [GNothing])
  end.

(** A whole program, client/src/lib.rs:107-465. *)
Definition fluents (h : list event) (s : store) : fluent :=
  fold_left fluent_step h (Fluent s [] []).
