(** Properties of the texts of errors: C101.  The texts are [Texts], the vocabulary [TextSpec]. *)
From Coq Require Import String.
From Verif Require Import Bytes BytesFacts Utf8 Value CommandId Request Metrics Prog Commands Client ClientSpec
  Cli Texts TextSpec TextFacts.
From stdpp Require Import list.
From Coq Require Import NArith ZArith.

(** C101: two lines that cannot be read are reported with the same text only for the same reason, with
    the same offending word. *)
Theorem C101_line :
  forall a b,
  process_text a = process_text b -> a = b.
Proof. exact c101_process. Qed.
Print Assumptions C101_line.

(** C101: a report about a word names a word of the line. *)
Theorem C101_blames :
  forall e x line err w,
  parse_line e x line = LErr err -> blamed err = Some w ->
  occurs w line /\ occurs w (process_text err).
Proof. exact c101_blames. Qed.
Print Assumptions C101_blames.

(** C101: the errors of the engine, the request builder, the requests and the messages of the command
    line differ in their texts. *)
Theorem C101_short :
  (forall a b, dispatch_text a = dispatch_text b -> a = b) /\
  (forall a b, builder_text a = builder_text b -> a = b) /\
  (forall a b, config_text a = config_text b -> a = b) /\
  (forall a b, message a = message b -> a = b).
Proof. exact c101_short. Qed.
Print Assumptions C101_short.

(** C101: two errors of a memory client with the same text are the same, but for the value that could
    not be sent, whatever its text. *)
Theorem C101_memory :
  forall show a b t,
  number_fits a -> number_fits b ->
  memory_text show a = Some t -> memory_text show b = Some t -> alike a b.
Proof. exact c101_memory. Qed.
Print Assumptions C101_memory.

(** ... and those are all errors of its calls. *)
Theorem C101_memory_all :
  forall show e s c err,
  (mem_call e s c).2 = RErr err ->
  is_Some (memory_text show err) /\ number_fits err.
Proof. exact c101_memory_all. Qed.
Print Assumptions C101_memory_all.

(** C101: two errors of the calls of a server client with the same text are the same. *)
Theorem C101_server :
  forall a b t,
  number_fits a -> number_fits b ->
  server_text a = Some t -> server_text b = Some t -> a = b.
Proof. exact c101_server. Qed.
Print Assumptions C101_server.

(** ... and those are all errors of its calls. *)
Theorem C101_server_all :
  forall e n c err,
  (srv_call e n c).2 = RErr err ->
  is_Some (server_text err) /\ number_fits err.
Proof. exact c101_server_all. Qed.
Print Assumptions C101_server_all.

Example C101_nonvacuous :
  let x := Text (fun _ => None) (fun _ => []) in
  parse_line (env_std true) x (lit "set:int k 12x") = LErr (LEArgumentInvalid (lit "12x") KTInteger) /\
  process_text (LEArgumentInvalid (lit "12x") KTInteger) =
    lit "failed to parse input: the argument '12x' is not a int" /\
  (mem_call (env_std true) store_new (KAppend (lit "k") (VBoolean true))).2 =
    RErr (CEKeyTypeUnsupported KTBoolean (Some (VBoolean true))) /\
  memory_text (fun _ => lit "Boolean(true)") (CEKeyTypeUnsupported KTBoolean (Some (VBoolean true))) =
    Some (lit "key type 1 is not supported by this command (value: Boolean(true))").
Proof. vm_compute. repeat split. Qed.
