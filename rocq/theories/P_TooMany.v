(** Client calls with more arguments than a request holds: C108.
    The clients are in [Client], the vocabulary is in [ClientSpec] and [TooManySpec]. *)
From Coq Require Import String.
From Verif Require Import Bytes BytesFacts Value CommandId Request RequestSpec Prog Commands EngineSpec
  WireSpec HistorySpec Client ClientSpec ClientProps TooManySpec TooManyFacts.
From stdpp Require Import gmap list.
From Coq Require Import NArith ZArith.

Definition rel : env := env_std false.
Definition dbg : env := env_std true.
Definition up : network := Network true [] false.
Definition many (n : nat) : list bytes := replicate n (lit "k").

(** That too many arguments are reported is false: asking for more than 256 keys panics, on both
    backends and in both builds. *)
Theorem C108_refuted :
  forall e s n l,
  env_ok e -> (256 < lenN l)%N -> Forall (fun k => k <> []) l ->
  mem_call e s (KExists l) = (s, RPanic) /\ srv_call e n (KExists l) = ([], RPanic).
Proof. exact c108_panics. Qed.
Print Assumptions C108_refuted.

(** That nothing is sent is false: in a release build 256 arguments are sent with a count that says
    none. *)
Theorem C108_slips_refuted :
  forall e n c,
  env_ok e -> slips_through e c = true -> refused c = None -> n_write_ok n = true ->
  Forall (fun a => lenN a < 2 ^ 32)%N (request_of e c).2 ->
  srv_call e n c = (wire_head (request_of e c).1.1 (request_of e c).1.2 ++ [n2b 0]
    ++ concat (map wire_arg (request_of e c).2), RErr CEConnectionClosed).
Proof. exact c108_slips. Qed.
Print Assumptions C108_slips_refuted.

(** In memory the same call works, though it has one argument more than a request holds. *)
Theorem C108_slips_memory :
  forall e s l,
  env_ok e -> debug e = false -> room s -> lenN l = 256%N -> Forall (fun k => k <> []) l ->
  (mem_call e s (KExists l)).2 =
    ROk (RpBool (forallb (fun k => bool_decide (is_Some (st_keys s !! k))) l)) /\
  st_keys (mem_call e s (KExists l)).1 = st_keys s.
Proof. exact c108_exists. Qed.
Print Assumptions C108_slips_memory.

(** Otherwise a call with too many arguments changes nothing and sends nothing; [set] reports it when
    the number of items is one below a multiple of 256, everything else panics. *)
Theorem C108_partial :
  forall e s n c,
  env_ok e -> (255 < sends c)%N -> refused c = None -> slips_through e c = false ->
  let r := if reports c then RErr (CEBuildingRequest BETooManyArguments) else RPanic in
  mem_call e s c = (s, r) /\ srv_call e n c = ([], r).
Proof. exact c108_nothing. Qed.
Print Assumptions C108_partial.

Example C108_nonvacuous :
  (sends (KExists (many 257)) = 257%N /\ sends (KSet (lit "a") (VList (many 255))) = 256%N) /\
  (reports (KSet (lit "a") (VList (many 255))) = true /\
   slips_through rel (KSet (lit "a") (VList (many 255))) = false) /\
  (reports (KSet (lit "a") (VList (many 256))) = false) /\
  (slips_through rel (KExists (many 256)) = true /\ slips_through dbg (KExists (many 256)) = false /\
   slips_through rel (KAppend (lit "a") (VList (many 255))) = true) /\
  refused (KExists (many 256)) = None /\ refused (KSet (lit "a") (VList (many 255))) = None /\
  (mem_call rel store_new (KSet (lit "a") (VList (many 255)))).2 =
    RErr (CEBuildingRequest BETooManyArguments) /\
  (mem_call dbg store_new (KSet (lit "a") (VList (many 256)))).2 = RPanic /\
  (mem_call rel store_new (KExists (many 256))).2 = ROk (RpBool false) /\
  take 2 (srv_call rel up (KExists (many 256))).1 = [n2b (command_id_to_u8 CExists); n2b 0].
Proof. vm_compute. split_and!; reflexivity. Qed.
