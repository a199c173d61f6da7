(** What the requests of a program do to a backend, whatever the backend is. *)
From Coq Require Import String.
From Verif Require Import Bytes Value Metrics Prog Commands HistorySpec Client ClientSpec Fluent FluentSpec
  AnyBackend.
From stdpp Require Import gmap list.
From Coq Require Import NArith ZArith.

(** What is asked of the backend for a request: a number is added or taken away by naming it, one if the
    program set none, and the backend is not told which kind of value the program wants back. *)
Definition passed_on (c : client_call) : client_call :=
  match c with
  | KGetTyped k _ => KGet k
  | KSetTyped k v => KSet k v
  | KAppendTyped k v => KAppend k v
  | KIncrementInt k None => KIncrementBy k (VInteger 1)
  | KIncrementInt k (Some z) => KIncrementBy k (VInteger z)
  | KIncrementFloat k None => KIncrementBy k (VFloat 0x3FF0000000000000)
  | KIncrementFloat k (Some x) => KIncrementBy k (VFloat x)
  | KDecrementInt k None => KDecrementBy k (VInteger 1)
  | KDecrementInt k (Some z) => KDecrementBy k (VInteger z)
  | KDecrementFloat k None => KDecrementBy k (VFloat 0x3FF0000000000000)
  | KDecrementFloat k (Some x) => KDecrementBy k (VFloat x)
  | c => c
  end.

(** The kind of value the program wants back, if its request says so. *)
Definition wanted_kind (c : client_call) : option key_type :=
  match c with
  | KGetTyped _ t => Some t
  | KSetTyped _ v | KAppendTyped _ v => Some (kind v)
  | KIncrementInt _ _ | KDecrementInt _ _ => Some KTInteger
  | KIncrementFloat _ _ | KDecrementFloat _ _ => Some KTFloat
  | _ => None
  end.

(** What the program sees of an answer of the backend: the answer, but it panics when it wants another
    kind of value than it was given. *)
Definition seen_of {F E} (c : client_call) (a : answer F E) : view E :=
  match a with
  | Later _ => WPending
  | Dies => WPanic
  | Now (inl (RpValue v)) =>
    match wanted_kind c with
    | Some t => if decide (kind v = t) then WReady (inl (RpValue v)) else WPanic
    | None => WReady (inl (RpValue v))
    end
  | Now r => WReady r
  end.

(** Where a program has got to: the events so far, the backend's world, the futures of the backend that
    are in flight (for the request of that number, and the call it is for) and what was seen. *)
Record progress (W F E : Type) := Progress {
  pg_past : list event; pg_world : W; pg_flight : gmap nat (client_call * F); pg_seen : list (view E) }.
Arguments Progress {W F E} _ _ _ _.
Arguments pg_past {W F E} _.
Arguments pg_world {W F E} _.
Arguments pg_flight {W F E} _.
Arguments pg_seen {W F E} _.

(** The backend answered a poll: the future stays in flight or not. *)
Definition answered {W F E} (i : nat) (c : client_call)
  (fl : gmap nat (client_call * F)) (a : W * answer F E) : W * gmap nat (client_call * F) * view E :=
  (a.1, match a.2 with Later f => <[i := (c, f)]> fl | _ => delete i fl end, seen_of c a.2).

(** The future of request [i] is dropped, if it is in flight. *)
Definition forgotten {W F E} (B : backend W F E) (i : nat) (w : W) (fl : gmap nat (client_call * F))
  (x : view E) : W * gmap nat (client_call * F) * view E :=
  match fl !! i with
  | Some (_, f) => (b_drop B w f, delete i fl, x)
  | None => (w, fl, x)
  end.

(** What happens at one event after [h]. *)
Definition happens {W F E} (B : backend W F E) (h : list event) (ev : event) (w : W)
  (fl : gmap nat (client_call * F)) : W * gmap nat (client_call * F) * view E :=
  match ev with
  | FStart _ => (w, fl, WNothing)
  | FDrop i => forgotten B i w fl WNothing
  | FCall i m =>
    match started h !! i, chain (h ++ [ev]) i with
    | Some n, Refused err => (w, fl, WRefused err)
    | Some n, _ => if turns n m && was_polled i h then forgotten B i w fl WPanic else (w, fl, WNothing)
    | None, _ => (w, fl, WNothing)
    end
  | FPoll e i =>
    match fl !! i with
    | Some (c, f) => answered i c fl (b_poll B e w f)      (* in flight: poll it *)
    | None =>
      if was_polled i h then (w, fl, WPanic)                 (* over: nothing is asked of the backend *)
      else match chain h i with
        | Asks c =>                                          (* the first poll: ask, then poll *)
          match b_begin B w (passed_on c) with
          | (w, Some f) => answered i c fl (b_poll B e w f)
          | (w, None) => (w, fl, WPanic)
          end
        | _ => (w, fl, WNothing)
        end
    end
  end.
Definition go_on {W F E} (B : backend W F E) (p : progress W F E) (ev : event) : progress W F E :=
  let '(Progress h w fl out) := p in
  let '(w, fl, x) := happens B h ev w fl in Progress (h ++ [ev]) w fl (out ++ [x]).
Definition progresses {W F E} (B : backend W F E) (h : list event) (w : W) : progress W F E :=
  fold_left (go_on B) h (Progress [] w ∅ []).

(** The same backend, with a log of all that is done with it.  Each call is given a number; the log has
    for each call that it was begun and with which arguments, each poll that was pending, and its end: the
    answer, a panic, or that it was dropped before it was over. *)
Inductive deed (E : Type) :=
| DBegun (c : client_call) | DPending | DAnswered (r : reply + E) | DDied | DDropped.
Arguments DBegun {E} _.
Arguments DPending {E}.
Arguments DAnswered {E} _.
Arguments DDied {E}.
Arguments DDropped {E}.
Definition deed_of {F E} (a : answer F E) : deed E :=
  match a with Later _ => DPending | Now r => DAnswered r | Dies => DDied end.
Definition logged {W F E} (B : backend W F E) : backend (W * list (nat * deed E)) (nat * F) E :=
  Backend
    (fun w c => let '(w', f) := b_begin B w.1 c in
       let id := length w.2 in
       match f with
       | Some f => ((w', w.2 ++ [(id, DBegun c)]), Some (id, f))
       | None => ((w', w.2 ++ [(id, DBegun c); (id, DDied)]), None)
       end)
    (fun e w f => let '(w', a) := b_poll B e w.1 f.2 in
       ((w', w.2 ++ [(f.1, deed_of a)]),
        match a with Later g => Later (f.1, g) | Now r => Now r | Dies => Dies end))
    (fun w f => (b_drop B w.1 f.2, w.2 ++ [(f.1, DDropped)])).

(** What was done with the call of number [id], and the calls begun, in order. *)
Definition deeds {E} (id : nat) (log : list (nat * deed E)) : list (deed E) :=
  (filter (fun x => x.1 = id) log).*2.
Definition calls_begun {E} (log : list (nat * deed E)) : list client_call :=
  omap (fun x => match x.2 with DBegun c => Some c | _ => None end) log.

(** A call is begun once, polled while it is pending, and comes to one end, after which nothing more is
    done with it. *)
Definition ended {E} (l : list (deed E)) : Prop :=
  exists c n x, l = DBegun c :: replicate n DPending ++ [x] /\
    match x with DAnswered _ | DDied | DDropped => True | _ => False end.
Definition under_way {E} (l : list (deed E)) : Prop :=
  exists c n, l = DBegun c :: replicate n DPending.

(** What is seen of the memory backend, in the terms of any backend. *)
Definition as_view (x : sight) : view client_error :=
  match x with
  | GNothing => WNothing
  | GReady (ROk r) => WReady (inl r)
  | GReady (RErr err) => WReady (inr err)
  | GReady _ | GPanic => WPanic
  | GRefused err => WRefused err
  end.
