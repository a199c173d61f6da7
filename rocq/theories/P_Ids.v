(** Properties of identifiers and value accessors: C37 and C38. *)
From Coq Require Import String.
From Verif Require Import Bytes Value CommandId Response Metrics IdSpec IdsFacts.
From stdpp Require Import gmap list.
From Coq Require Import NArith ZArith.

(** C37: a byte is accepted as an identifier exactly when it is that
    identifier's byte; so every identifier converts to a byte and back, distinct
    identifiers have distinct bytes and all other bytes are rejected. *)
Theorem C37_command_id : forall n c, command_id_of_u8 n = Some c <-> n = command_id_to_u8 c.
Proof. exact command_id_u8. Qed.
Print Assumptions C37_command_id.

Theorem C37_key_type : forall n c, key_type_of_u8 n = Some c <-> n = key_type_to_u8 c.
Proof. exact key_type_u8. Qed.
Print Assumptions C37_key_type.

Theorem C37_response_type :
  forall n c, response_type_of_u8 n = Some c <-> n = response_type_to_u8 c.
Proof. exact response_type_u8. Qed.
Print Assumptions C37_response_type.

Theorem C37_dispatch_error :
  forall n c, dispatch_error_of_u8 n = Some c <-> n = dispatch_error_to_u8 c.
Proof. exact dispatch_error_u8. Qed.
Print Assumptions C37_dispatch_error.

Theorem C37_parse_error :
  forall n c, parse_error_of_u8 n = Some c <-> n = parse_error_to_u8 c.
Proof. exact parse_error_u8. Qed.
Print Assumptions C37_parse_error.

(** A string is accepted as a command exactly when it is the command's name. *)
Theorem C37_command_name :
  forall s c, command_id_of_name s = Some c <-> s = command_name c.
Proof. exact command_id_name. Qed.
Print Assumptions C37_command_name.

(** The top bit of a command byte is free for the key-type flag. *)
Theorem C37_command_id_top_bit_free : forall c, (command_id_to_u8 c < 128)%N.
Proof. exact command_id_u8_small. Qed.
Print Assumptions C37_command_id_top_bit_free.

Example C37_nonvacuous :
  command_id_of_u8 (command_id_to_u8 CRename) = Some CRename
  /\ command_id_of_u8 200 = None /\ key_type_of_u8 8 = None
  /\ command_id_of_name (lit "increment:by") = Some CIncrementBy
  /\ command_id_of_name (lit "Increment") = None.
Proof. vm_compute. repeat split; reflexivity. Qed.

(** The bytes and names are those of the protocol's tables (IdSpec.v), both ways. *)
Theorem C37_commands :
  (forall c n, command_id_to_u8 c = n <-> exists s, (c, n, s) ∈ command_table) /\
  (forall c n, command_id_of_u8 n = Some c <-> exists s, (c, n, s) ∈ command_table) /\
  (forall c b, command_name c = b <-> exists n s, (c, n, s) ∈ command_table /\ b = lit s) /\
  (forall c b, command_id_of_name b = Some c <-> exists n s, (c, n, s) ∈ command_table /\ b = lit s).
Proof. exact command_tables. Qed.
Print Assumptions C37_commands.

Theorem C37_codes :
  (forall t n, key_type_to_u8 t = n <-> (t, n) ∈ key_type_table) /\
  (forall t n, key_type_of_u8 n = Some t <-> (t, n) ∈ key_type_table) /\
  (forall t n, response_type_to_u8 t = n <-> (t, n) ∈ response_type_table) /\
  (forall t n, response_type_of_u8 n = Some t <-> (t, n) ∈ response_type_table) /\
  (forall t n, dispatch_error_to_u8 t = n <-> (t, n) ∈ dispatch_error_table) /\
  (forall t n, dispatch_error_of_u8 n = Some t <-> (t, n) ∈ dispatch_error_table) /\
  (forall t n, parse_error_to_u8 t = n <-> (t, n) ∈ parse_error_table) /\
  (forall t n, parse_error_of_u8 n = Some t <-> (t, n) ∈ parse_error_table).
Proof. exact code_tables. Qed.
Print Assumptions C37_codes.

(** The counters' names, and the one command whose request is only its byte. *)
Theorem C37_names :
  (forall m b, metric_name m = b <-> exists s, (m, s) ∈ metric_table /\ b = lit s) /\
  (forall c, is_simple c = true <-> c = CStats).
Proof. exact name_tables. Qed.
Print Assumptions C37_names.

(** C38 fails for one predicate: [is_string] is true of booleans and false of
    strings. *)
Theorem C38_refuted :
  (forall s, is_string (VString s) = false) /\
  (forall b, is_string (VBoolean b) = true) /\
  ~ (forall v, is_string v = true <-> kind v = KTString).
Proof. exact c38_is_string. Qed.
Print Assumptions C38_refuted.

(** C38, proved part: all other accessors and predicates agree with the kind.
    Missing: [is_string]. *)
Theorem C38_partial :
  forall v,
  (is_Some (as_boolean v) <-> kind v = KTBoolean) /\
  (is_Some (as_bytes v) <-> kind v = KTBytes) /\
  (is_Some (as_float v) <-> kind v = KTFloat) /\
  (is_Some (as_integer v) <-> kind v = KTInteger) /\
  (is_Some (as_list v) <-> kind v = KTList) /\
  (is_Some (as_map v) <-> kind v = KTMap) /\
  (is_Some (as_set v) <-> kind v = KTSet) /\
  (is_Some (as_string v) <-> kind v = KTString) /\
  (is_boolean v = true <-> kind v = KTBoolean) /\
  (is_bytes v = true <-> kind v = KTBytes) /\
  (is_float v = true <-> kind v = KTFloat) /\
  (is_integer v = true <-> kind v = KTInteger) /\
  (is_list v = true <-> kind v = KTList) /\
  (is_map v = true <-> kind v = KTMap) /\
  (is_set v = true <-> kind v = KTSet).
Proof. exact c38_own_kind. Qed.
Print Assumptions C38_partial.

(** ... and they answer the content. *)
Theorem C38_content_partial :
  forall v,
  (forall x, as_boolean v = Some x <-> v = VBoolean x) /\
  (forall x, as_bytes v = Some x <-> v = VBytes x) /\
  (forall x, as_float v = Some x <-> v = VFloat x) /\
  (forall x, as_integer v = Some x <-> v = VInteger x) /\
  (forall x, as_list v = Some x <-> v = VList x) /\
  (forall x, as_map v = Some x <-> v = VMap x) /\
  (forall x, as_set v = Some x <-> v = VSet x) /\
  (forall x, as_string v = Some x <-> v = VString x).
Proof. exact c38_content. Qed.
Print Assumptions C38_content_partial.
