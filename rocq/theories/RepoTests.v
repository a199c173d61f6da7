(** The repository's own unit tests, carried out on the model.  These are tests, not proofs of any property: they
    check that the model does on these inputs what its authors saw the program do.  One [Example] for each
    [#[test]] of /repo that is about the modelled code, under the same name after the file's; each cites it.  At the
    end are the examples of the documentation that are run as tests and assert something.  Tests
    run in debug builds.  Where a map or set has two items, and the test allows both orders, both are run.
    Left out: the tests that only say which traits a type has. *)
From Coq Require Import String.
From Verif Require Import Bytes Utf8 Float64 Value CommandId Request ReqContext Response RespContext Metrics Prog Commands
  HistorySpec Timer Cli Client ClientSpec FloatText PubSub SubHandles Session Hop.
From stdpp Require Import gmap list.
From Coq Require Import NArith ZArith.

(** A debug build, and one in which maps and sets are walked the other way round. *)
Definition e1 : env := env_std true.
Definition e2 : env := Env true (fun m => rev (map_to_list m)) (fun s => rev (elements s)).

(** Byte literals. *)
Definition bs (l : list N) : bytes := map n2b l.

(** [RequestBuilder::new_with_key_type] and calls of [bytes] that succeed; with no key type it is [new]. *)
Definition built_with (c : command_id) (kt : option key_type) (l : list bytes) : option builder :=
  fold_left (fun o a => b ← o; match builder_bytes e1 b a with Ok (b', None) => Some b' | _ => None end) l
    (Some (builder_new_kt c kt)).
Definition built (c : command_id) (l : list bytes) : option builder :=
  fold_left (fun o a => b ← o; match builder_bytes e1 b a with Ok (b', None) => Some b' | _ => None end) l
    (Some (builder_new c)).
Definition and_value (o : option builder) (v : value) : option builder :=
  b ← o; match builder_value e1 b v with Ok (b', None) => Some b' | _ => None end.

(** [X::dispatch(&hop, &req, &mut resp)] for the request of a builder, with an empty response buffer. *)
Definition gives (cmd : env -> request -> bytes -> prog) (e : env) (o : option builder) (s : store) : option (store * cres) :=
  b ← o; Some (run (cmd e (into_request b) []) s).
(** It is [Ok], and the buffer is that of [Response::from(v)]. *)
Definition answers (cmd : env -> request -> bytes -> prog) (e : env) (o : option builder) (s : store) (v : value) : bool :=
  match gives cmd e o s, as_frame e (RValue v) with
  | Some (_, COk res), Ok frame => bool_decide (res = frame)
  | _, _ => false
  end.
(** It is this error. *)
Definition fails (cmd : env -> request -> bytes -> prog) (o : option builder) (s : store) (err : dispatch_error) : bool :=
  match gives cmd e1 o s with
  | Some (_, CErr err' _) => (dispatch_error_to_u8 err =? dispatch_error_to_u8 err')%N
  | _ => false
  end.
(** It is [Ok], and the key is then bound to a value with this property. *)
Definition leaves (cmd : env -> request -> bytes -> prog) (o : option builder) (s : store) (k : bytes)
  (P : option value -> bool) : bool :=
  match gives cmd e1 o s with Some (s', COk _) => P (st_keys s' !! k) | _ => false end.
Definition an_integer (z : Z) (o : option value) : bool :=
  match o with Some v => bool_decide (as_integer v = Some z) | None => false end.

Definition foo : bytes := lit "foo".
Definition bar : bytes := lit "bar".
Definition holds (k : bytes) (v : value) : store := store_of [(k, v)].

(** ** engine/src/command/impl *)

(** engine/src/command/impl/type.rs:38-52 *)
Example type_key : answers cmd_type e1 (built CType [foo; bs [1]%N]) (holds foo (VBoolean true))
  (VInteger (Z.of_N (key_type_to_u8 KTBoolean))) = true.
Proof. vm_compute. reflexivity. Qed.
(** engine/src/command/impl/type.rs:54-65 *)
Example type_no_key : fails cmd_type (built CType []) store_new EKeyUnspecified = true.
Proof. vm_compute. reflexivity. Qed.
(** engine/src/command/impl/type.rs:67-79 *)
Example type_key_type_specified : fails cmd_type (built_with CType (Some KTBoolean) []) store_new EKeyUnspecified = true.
Proof. vm_compute. reflexivity. Qed.

(** engine/src/command/impl/stats.rs:55-64 *)
Example stats_empty : answers cmd_stats e1 (built CStats []) store_new (VMap ∅) = true.
Proof. vm_compute. reflexivity. Qed.
(** engine/src/command/impl/stats.rs:66-79 *)
Example stats_with_entry : answers cmd_stats e1 (built CStats []) (Store ∅ {[MCommandsSuccessful := 1%N]})
  (VMap {[lit "commands_successful" := i64_enc 1]}) = true.
Proof. vm_compute. reflexivity. Qed.
(** engine/src/command/impl/stats.rs:81-93 *)
Example stats_errors_with_key_type : fails cmd_stats (built_with CStats (Some KTMap) []) store_new EKeyTypeUnexpected = true.
Proof. vm_compute. reflexivity. Qed.

(** engine/src/command/impl/increment_by.rs:67-85 *)
Example increment_by_ok : let b := and_value (built CIncrementBy [foo]) (VInteger 3) in
  answers cmd_increment_by e1 b store_new (VInteger 3) && leaves cmd_increment_by b store_new foo (an_integer 3) = true.
Proof. vm_compute. reflexivity. Qed.
(** engine/src/command/impl/increment_by.rs:87-97 *)
Example increment_by_no_key : fails cmd_increment_by (built CDecrement []) store_new EKeyUnspecified = true.
Proof. vm_compute. reflexivity. Qed.
(** engine/src/command/impl/increment_by.rs:99-112 *)
Example increment_by_no_amount : fails cmd_increment_by (built CIncrementBy [foo]) store_new EArgumentRetrieval = true.
Proof. vm_compute. reflexivity. Qed.

(** engine/src/command/impl/decrement.rs:32-49 *)
Example decrement_ok : let b := built CDecrement [foo] in
  answers cmd_decrement e1 b store_new (VInteger (-1)) && leaves cmd_decrement b store_new foo (an_integer (-1)) = true.
Proof. vm_compute. reflexivity. Qed.
(** engine/src/command/impl/decrement.rs:51-61 *)
Example decrement_no_key : fails cmd_decrement (built CDecrement []) store_new EKeyUnspecified = true.
Proof. vm_compute. reflexivity. Qed.

(** engine/src/command/impl/decrement_by.rs:34-52 *)
Example decrement_by_ok : let b := and_value (built CDecrementBy [foo]) (VInteger 3) in
  answers cmd_decrement_by e1 b store_new (VInteger (-3)) && leaves cmd_decrement_by b store_new foo (an_integer (-3)) = true.
Proof. vm_compute. reflexivity. Qed.
(** engine/src/command/impl/decrement_by.rs:54-64 *)
Example decrement_by_no_key : fails cmd_decrement_by (built CDecrement []) store_new EKeyUnspecified = true.
Proof. vm_compute. reflexivity. Qed.
(** engine/src/command/impl/decrement_by.rs:66-78 *)
Example decrement_by_no_amount : fails cmd_decrement_by (built CDecrementBy [foo]) store_new EArgumentRetrieval = true.
Proof. vm_compute. reflexivity. Qed.

(** engine/src/command/impl/increment.rs:32-49 *)
Example increment_ok : let b := built CIncrement [foo] in
  answers cmd_increment e1 b store_new (VInteger 1) && leaves cmd_increment b store_new foo (an_integer 1) = true.
Proof. vm_compute. reflexivity. Qed.
(** engine/src/command/impl/increment.rs:51-61 *)
Example increment_no_key : fails cmd_increment (built CIncrement []) store_new EKeyUnspecified = true.
Proof. vm_compute. reflexivity. Qed.

(** engine/src/command/impl/rename.rs:44-58 *)
Example rename_valid : answers cmd_rename e1 (built CRename [foo; bar]) (holds foo (VBytes (bs [1; 2; 3]%N))) (VBytes bar) = true.
Proof. vm_compute. reflexivity. Qed.
(** engine/src/command/impl/rename.rs:60-74 *)
Example rename_src_nonexistent : fails cmd_rename (built CRename [foo; bar]) store_new EKeyNonexistent = true.
Proof. vm_compute. reflexivity. Qed.
(** engine/src/command/impl/rename.rs:76-92 *)
Example rename_destination_already_exists : fails cmd_rename (built CRename [foo; bar])
  (store_of [(foo, value_bytes); (bar, value_bytes)]) EPreconditionFailed = true.
Proof. vm_compute. reflexivity. Qed.
(** engine/src/command/impl/rename.rs:94-115 *)
Example rename_too_few_arguments : fails cmd_rename (built CRename [foo]) store_new EArgumentRetrieval &&
  fails cmd_rename (built CRename []) store_new EKeyUnspecified = true.
Proof. vm_compute. reflexivity. Qed.

(** engine/src/command/impl/echo.rs:31-55; [write_list] *)
Example echo_input : answers cmd_echo e1 (built CEcho [lit "hopdb"]) store_new (VList [lit "hopdb"]) &&
  answers cmd_echo e1 (built CEcho [lit "hopdb"; lit "hop"]) store_new (VList [lit "hopdb"; lit "hop"]) = true.
Proof. vm_compute. reflexivity. Qed.
(** engine/src/command/impl/echo.rs:57-70 *)
Example echo_empty : answers cmd_echo e1 (built CEcho []) store_new (VList []) = true.
Proof. vm_compute. reflexivity. Qed.

(** engine/src/command/impl/delete.rs:43-55.  The test's request has the id of DecrementBy. *)
Example delete_valid : let b := built_with CDecrementBy None [foo] in
  answers cmd_delete e1 b (holds foo (VBytes foo)) (VBytes foo) &&
  leaves cmd_delete b (holds foo (VBytes foo)) foo (fun o => match o with None => true | Some _ => false end) = true.
Proof. vm_compute. reflexivity. Qed.
(** engine/src/command/impl/delete.rs:57-68 *)
Example delete_nonexistent : fails cmd_delete (built_with CDecrementBy None [foo]) store_new EPreconditionFailed = true.
Proof. vm_compute. reflexivity. Qed.
(** engine/src/command/impl/delete.rs:70-81 *)
Example delete_key_type_specified : fails cmd_delete (built_with CDecrementBy (Some KTBytes) [foo]) store_new EKeyTypeUnexpected = true.
Proof. vm_compute. reflexivity. Qed.
(** engine/src/command/impl/delete.rs:83-93 *)
Example delete_no_arguments : fails cmd_delete (built CDelete []) store_new EKeyUnspecified = true.
Proof. vm_compute. reflexivity. Qed.

(** engine/src/command/impl/length.rs:99-110 *)
Example length_no_args : fails cmd_length (built CLength []) store_new EKeyUnspecified = true.
Proof. vm_compute. reflexivity. Qed.
(** engine/src/command/impl/length.rs:112-131 *)
Example length_invalid_key_type :
  forallb (fun t => fails cmd_length (built_with CLength (Some t) [foo]) store_new EKeyTypeInvalid) [KTBoolean; KTFloat; KTInteger] = true.
Proof. vm_compute. reflexivity. Qed.
(** engine/src/command/impl/length.rs:133-146 *)
Example length_default_when_key_nonexistent : fails cmd_length (built CLength [foo]) store_new EKeyNonexistent = true.
Proof. vm_compute. reflexivity. Qed.
(** engine/src/command/impl/length.rs:148-162 *)
Example length_default_when_bytes_exists :
  answers cmd_length e1 (built CLength [foo]) (holds foo (VBytes (bs [1; 2; 3]%N))) (VInteger 3) = true.
Proof. vm_compute. reflexivity. Qed.
(** engine/src/command/impl/length.rs:164-178 *)
Example length_default_when_list_exists :
  answers cmd_length e1 (built CLength [lit "hop"]) (holds (lit "hop") (VList [lit "db"])) (VInteger 1) = true.
Proof. vm_compute. reflexivity. Qed.
(** engine/src/command/impl/length.rs:180-194 *)
Example length_default_when_map_exists :
  answers cmd_length e1 (built CLength [lit "hop"]) (holds (lit "hop") (VMap {[foo := bar]})) (VInteger 1) = true.
Proof. vm_compute. reflexivity. Qed.
(** engine/src/command/impl/length.rs:196-210 *)
Example length_default_when_set_exists :
  answers cmd_length e1 (built CLength [lit "hop"]) (holds (lit "hop") (VSet {[foo]})) (VInteger 1) = true.
Proof. vm_compute. reflexivity. Qed.
(** engine/src/command/impl/length.rs:212-247 *)
Example length_default_when_string_exists :
  let cowboy := bs [240; 159; 164; 160]%N in
  let s := store_of [(foo, VString (lit "1234")); (lit "cowboy", VString cowboy)] in
  (lenN cowboy =? 4)%N && answers cmd_length e1 (built CLength [foo]) s (VInteger 4) &&
  answers cmd_length e1 (built CLength [lit "cowboy"]) s (VInteger 1) = true.
Proof. vm_compute. reflexivity. Qed.

(** engine/src/command/impl/exists.rs:33-46 *)
Example exists_one_key : answers cmd_exists e1 (built CExists [foo]) (holds foo (VBytes (bs [1; 2; 3]%N))) (VBoolean true) = true.
Proof. vm_compute. reflexivity. Qed.
(** engine/src/command/impl/exists.rs:48-64 *)
Example exists_two_keys_both_exist : answers cmd_exists e1 (built CExists [foo; bar])
  (store_of [(foo, VBytes (bs [1; 2; 3]%N)); (bar, VBytes (bs [1; 2; 3]%N))]) (VBoolean true) = true.
Proof. vm_compute. reflexivity. Qed.
(** engine/src/command/impl/exists.rs:66-80 *)
Example exists_two_keys_one_exists :
  answers cmd_exists e1 (built CExists [foo; bar]) (holds foo (VBytes (bs [1; 2; 3]%N))) (VBoolean false) = true.
Proof. vm_compute. reflexivity. Qed.
(** engine/src/command/impl/exists.rs:82-93 *)
Example exists_one_key_doesnt_exist : answers cmd_exists e1 (built CExists [foo]) store_new (VBoolean false) = true.
Proof. vm_compute. reflexivity. Qed.
(** engine/src/command/impl/exists.rs:95-106 *)
Example exists_no_arguments : fails cmd_exists (built CExists []) store_new EArgumentRetrieval = true.
Proof. vm_compute. reflexivity. Qed.
(** engine/src/command/impl/exists.rs:108-122 *)
Example exists_key_type_specified : fails cmd_exists (built_with CExists (Some KTList) [foo; bar]) store_new EKeyTypeUnexpected = true.
Proof. vm_compute. reflexivity. Qed.

(** engine/src/command/impl/set.rs:162-190; one engine for all types, as there *)
Example set_types_no_arg :
  (fold_left (fun a t =>
     match gives cmd_set e1 (built_with CSet (Some t) [foo]) a.1 with
     | Some (s', CErr EArgumentRetrieval _) => (s', a.2)
     | _ => (a.1, false)
     end)
   [KTBoolean; KTBytes; KTFloat; KTInteger; KTList; KTMap; KTSet; KTString] (store_new, true)).2 = true.
Proof. vm_compute. reflexivity. Qed.
(** engine/src/command/impl/set.rs:192-212 *)
Example set_bool : let b := built_with CSet (Some KTBoolean) [foo; bs [1]%N] in
  answers cmd_set e1 b store_new (VBoolean true) &&
  leaves cmd_set b store_new foo (fun o => bool_decide (o ≫= as_boolean = Some true)) = true.
Proof. vm_compute. reflexivity. Qed.
(** engine/src/command/impl/set.rs:214-234 *)
Example set_bytes : let b := built_with CSet (Some KTBytes) [foo; lit "bar baz"] in
  answers cmd_set e1 b store_new (VBytes (lit "bar baz")) &&
  leaves cmd_set b store_new foo (fun o => bool_decide (o ≫= as_bytes = Some (lit "bar baz"))) = true.
Proof. vm_compute. reflexivity. Qed.
(** engine/src/command/impl/set.rs:236-256; 2.0 has the bits 0x4000000000000000 *)
Example set_float : let two := 4611686018427387904%N in
  let b := built_with CSet (Some KTFloat) [foo; be_enc 8 two] in
  answers cmd_set e1 b store_new (VFloat two) &&
  leaves cmd_set b store_new foo (fun o => bool_decide (o ≫= as_float = Some two)) = true.
Proof. vm_compute. reflexivity. Qed.
(** engine/src/command/impl/set.rs:258-278 *)
Example set_int : let b := built_with CSet (Some KTInteger) [foo; i64_enc 2] in
  answers cmd_set e1 b store_new (VInteger 2) && leaves cmd_set b store_new foo (an_integer 2) = true.
Proof. vm_compute. reflexivity. Qed.
(** engine/src/command/impl/set.rs:280-302 *)
Example set_list_three_entries :
  leaves cmd_set (built_with CSet (Some KTList) [foo; lit "value1"; lit "value2"; lit "value2"]) store_new foo
    (fun o => bool_decide (length <$> (o ≫= as_list) = Some 3)) = true.
Proof. vm_compute. reflexivity. Qed.
(** engine/src/command/impl/set.rs:304-327 *)
Example set_map_two_entries :
  leaves cmd_set (built_with CSet (Some KTMap) [foo; lit "key1"; lit "value1"; lit "key2"; lit "value2"]) store_new foo
    (fun o => bool_decide (size <$> (o ≫= as_map) = Some 2)) = true.
Proof. vm_compute. reflexivity. Qed.
(** engine/src/command/impl/set.rs:329-350 *)
Example set_set_two_entries :
  leaves cmd_set (built_with CSet (Some KTSet) [foo; lit "value1"; lit "value2"]) store_new foo
    (fun o => bool_decide (size <$> (o ≫= as_set) = Some 2)) = true.
Proof. vm_compute. reflexivity. Qed.
(** engine/src/command/impl/set.rs:352-372 *)
Example set_str : let b := built_with CSet (Some KTString) [foo; bar] in
  answers cmd_set e1 b store_new (VString bar) &&
  leaves cmd_set b store_new foo (fun o => bool_decide (o ≫= as_string = Some bar)) = true.
Proof. vm_compute. reflexivity. Qed.

(** engine/src/command/impl/keys.rs:48-65 *)
Example keys_map_no_key_type_two_pairs :
  forallb (fun e =>
    let s := holds foo (VMap (list_to_map [(lit "key1", lit "value2"); (lit "key2", lit "value2")])) in
    answers cmd_keys e (built CKeys [foo]) s (VList [lit "key1"; lit "key2"]) ||
    answers cmd_keys e (built CKeys [foo]) s (VList [lit "key2"; lit "key1"])) [e1; e2] = true.
Proof. vm_compute. reflexivity. Qed.
(** engine/src/command/impl/keys.rs:67-81 *)
Example keys_map_key_type :
  answers cmd_keys e1 (built_with CKeys (Some KTMap) [foo]) (holds foo (VMap {[lit "key" := lit "value"]})) (VList [lit "key"]) = true.
Proof. vm_compute. reflexivity. Qed.
(** engine/src/command/impl/keys.rs:83-96 *)
Example keys_key_type_invalid : fails cmd_keys (built_with CKeys (Some KTInteger) [foo]) store_new EKeyTypeInvalid = true.
Proof. vm_compute. reflexivity. Qed.
(** engine/src/command/impl/keys.rs:98-112 *)
Example keys_key_type_different :
  fails cmd_keys (built_with CKeys (Some KTMap) [foo]) (holds foo (VInteger 1)) EKeyTypeDifferent = true.
Proof. vm_compute. reflexivity. Qed.

(** engine/src/command/impl/is.rs:37-50 *)
Example is_one_arg : answers cmd_is e1 (built_with CIs (Some KTString) [foo]) (holds foo value_string) (VBoolean true) = true.
Proof. vm_compute. reflexivity. Qed.
(** engine/src/command/impl/is.rs:52-67 *)
Example is_two_args : answers cmd_is e1 (built_with CIs (Some KTString) [foo; bar])
  (store_of [(foo, value_string); (bar, value_string)]) (VBoolean true) = true.
Proof. vm_compute. reflexivity. Qed.
(** engine/src/command/impl/is.rs:69-84 *)
Example is_two_mismatched : answers cmd_is e1 (built_with CIs (Some KTString) [foo; bar])
  (store_of [(foo, value_string); (bar, value_integer)]) (VBoolean false) = true.
Proof. vm_compute. reflexivity. Qed.
(** engine/src/command/impl/is.rs:86-99 *)
Example is_no_arguments : fails cmd_is (built_with CIs (Some KTBytes) []) store_new EArgumentRetrieval = true.
Proof. vm_compute. reflexivity. Qed.
(** engine/src/command/impl/is.rs:101-115 *)
Example is_key_type_unspecified : fails cmd_is (built CIs [foo]) store_new EKeyTypeRequired = true.
Proof. vm_compute. reflexivity. Qed.

(** engine/src/command/impl/get.rs:39-51 *)
Example get_bool : answers cmd_get e1 (built CGet [foo]) (holds foo (VBoolean false)) (VBoolean false) = true.
Proof. vm_compute. reflexivity. Qed.
(** engine/src/command/impl/get.rs:53-65 *)
Example get_bool_specified_key_type :
  answers cmd_get e1 (built_with CGet (Some KTBoolean) [foo]) (holds foo (VBoolean true)) (VBoolean true) = true.
Proof. vm_compute. reflexivity. Qed.
(** engine/src/command/impl/get.rs:67-79 *)
Example get_int : answers cmd_get e1 (built CGet [foo]) (holds foo (VInteger 123)) (VInteger 123) = true.
Proof. vm_compute. reflexivity. Qed.
(** engine/src/command/impl/get.rs:81-92 *)
Example get_no_key : fails cmd_get (built CGet []) store_new EKeyUnspecified = true.
Proof. vm_compute. reflexivity. Qed.
(** engine/src/command/impl/get.rs:94-107 *)
Example get_key_nonexistent : fails cmd_get (built CGet [foo]) store_new EKeyNonexistent = true.
Proof. vm_compute. reflexivity. Qed.
(** engine/src/command/impl/get.rs:109-123 *)
Example get_key_type_different : fails cmd_get (built_with CGet (Some KTBoolean) [foo]) (holds foo (VInteger 123)) EKeyTypeDifferent = true.
Proof. vm_compute. reflexivity. Qed.

(** ** engine/src/command/request *)

(** engine/src/command/request/builder.rs:297-310 *)
Example builder_cmd_id : into_request (builder_new CStats) = Request (bs [command_id_to_u8 CStats]) CStats None [].
Proof. vm_compute. reflexivity. Qed.
(** engine/src/command/request/builder.rs:312-331 *)
Example builder_key_type : into_request (builder_new_kt CDecrement (Some KTInteger)) =
  Request (bs [N.lor 128 (command_id_to_u8 CDecrement); key_type_to_u8 KTInteger; 0%N]) CDecrement (Some KTInteger) [].
Proof. vm_compute. reflexivity. Qed.
(** engine/src/command/request/builder.rs:333-366 *)
Example builder_arg_bytes : into_request <$> built_with CAppend (Some KTList) [foo] =
  Some (Request (bs [N.lor 128 (command_id_to_u8 CAppend); key_type_to_u8 KTList; 1; 0; 0; 0; 3]%N ++ foo) CAppend (Some KTList) [9%N]).
Proof. vm_compute. reflexivity. Qed.
(** engine/src/command/request/builder.rs:368-416 *)
Example builder_arg_value : into_request <$> and_value (built_with CSet (Some KTString) [foo]) (VInteger 123) =
  Some (Request (bs [N.lor 128 (command_id_to_u8 CSet); key_type_to_u8 KTString; 2; 0; 0; 0; 3]%N ++ foo ++
    bs [0; 0; 0; 8; 0; 0; 0; 0; 0; 0; 0; 123]%N) CSet (Some KTString) [9; 21]%N).
Proof. vm_compute. reflexivity. Qed.
(** engine/src/command/request/builder.rs:418-434 *)
Example builder_positions :
  b_buf <$> built CDecrement [foo] = Some (bs [command_id_to_u8 CDecrement; 1; 0; 0; 0; 3]%N ++ foo) /\
  b_positions <$> built CDecrement [foo] = Some [8%N] /\
  b_positions <$> built_with CGet (Some KTBoolean) [foo] = Some [9%N].
Proof. vm_compute. repeat split; reflexivity. Qed.

(** engine/src/command/request/context.rs:229-262 *)
Example context_increment_foo :
  match (req_feed req_ctx_new (bs [0; 1; 0; 0; 0; 3]%N ++ foo)).2 with
  | FRequest r => r_command r = CIncrement
  | _ => False
  end.
Proof. vm_compute. reflexivity. Qed.
(** engine/src/command/request/context.rs:264-271 *)
Example parse_error_try_from_u8 : parse_error_of_u8 0 = Some PECommandIdInvalid /\ parse_error_of_u8 1 = Some PEKeyTypeInvalid.
Proof. vm_compute. split; reflexivity. Qed.

(** engine/src/command/request/mod.rs:237-260 *)
Example request_into_bytes_simple :
  r_buf (into_request (builder_new CStats)) = bs [101%N] /\
  r_buf (into_request (builder_new_kt CIncrement (Some KTFloat))) = bs [128; key_type_to_u8 KTFloat; 0]%N.
Proof. vm_compute. split; reflexivity. Qed.
(** The items an iterator yields first, one after the other. *)
Fixpoint nexts (n : nat) (a : arguments) : list (option bytes) :=
  match n with O => [] | S n => let '(o, a') := arguments_next a in o :: nexts n a' end.
(** engine/src/command/request/mod.rs:262-271 *)
Example request_args : (b ← built CDecrement [foo]; nexts 1 <$> args_all (into_request b)) = Some [Some foo].
Proof. vm_compute. reflexivity. Qed.
(** engine/src/command/request/mod.rs:273-285 *)
Example request_args_many : (b ← built CEcho [foo; bar; lit "baz"]; nexts 3 <$> args_all (into_request b)) =
  Some [Some foo; Some bar; Some (lit "baz")].
Proof. vm_compute. reflexivity. Qed.
(** engine/src/command/request/mod.rs:287-321 *)
Example request_into_bytes_echo : (fun b => r_buf (into_request b)) <$> built CEcho [foo; bar] =
  Some (bs [command_id_to_u8 CEcho; 2; 0; 0; 0; 3]%N ++ foo ++ bs [0; 0; 0; 3]%N ++ bar).
Proof. vm_compute. reflexivity. Qed.
(** engine/src/command/request/mod.rs:323-348 *)
Example request_into_bytes_increment :
  (fun b => r_buf (into_request b)) <$> built_with CIncrement (Some KTInteger) [lit "key"] =
  Some (bs [N.lor 128 (command_id_to_u8 CIncrement); key_type_to_u8 KTInteger; 1; 0; 0; 0; 3]%N ++ lit "key").
Proof. vm_compute. reflexivity. Qed.

(** ** engine/src/command/response *)

(** What a parser answers to buffers that are given it one after the other. *)
Fixpoint fed (x : resp_ctx) (bufs : list bytes) : resp_ctx * list resp_feed_res :=
  match bufs with
  | [] => (x, [])
  | buf :: bufs => let '(x', r) := resp_feed true x buf in let '(x'', rs) := fed x' bufs in (x'', r :: rs)
  end.
Definition rt (t : response_type) : N := response_type_to_u8 t.

(** engine/src/command/response/context.rs:551-559 *)
Example response_resets_automatically : (resp_feed true resp_ctx_new (bs [0; 0; 0; 2; rt RTBoolean; 1]%N)).1 = RespCtx 0 SInit.
Proof. vm_compute. reflexivity. Qed.
(** engine/src/command/response/context.rs:561-575 *)
Example response_boolean :
  (fed resp_ctx_new [bs [0; 0; 0; 2; rt RTBoolean]%N; bs [0; 0; 0; 2; rt RTBoolean; 1]%N]).2 =
  [PReadBytes 1; PConcluded (RValue (VBoolean true))].
Proof. vm_compute. reflexivity. Qed.
(** engine/src/command/response/context.rs:577-589 *)
Example response_bytes :
  let buf := [0; 0; 0; 5; 1; 0; 0; 0; 3]%N in
  (fed resp_ctx_new [bs buf; bs (buf ++ [2; 3]%N); bs (buf ++ [2; 3; 0]%N)]).2 =
  [PReadBytes 3; PReadBytes 1; PConcluded (RValue (VBytes (bs [2; 3; 0]%N)))].
Proof. vm_compute. reflexivity. Qed.
(** engine/src/command/response/context.rs:591-596 *)
Example response_dispatch_error_unfinished :
  (resp_feed true resp_ctx_new (bs [0; 0; 0; 0; 2; rt RTDispatchError]%N)).2 = PReadBytes 1.
Proof. vm_compute. reflexivity. Qed.
(** engine/src/command/response/context.rs:598-615, 617-634, 636-653 *)
Example response_dispatch_errors :
  forallb (fun err => match (resp_feed true resp_ctx_new (bs [0; 0; 0; 2; rt RTDispatchError; dispatch_error_to_u8 err]%N)).2 with
     | PConcluded (RDispatchError err') => (dispatch_error_to_u8 err =? dispatch_error_to_u8 err')%N
     | _ => false
     end) [EArgumentRetrieval; EKeyUnspecified; EKeyTypeDifferent] = true.
Proof. vm_compute. reflexivity. Qed.
(** engine/src/command/response/context.rs:655-659 *)
Example response_remaining_bytes : remaining_bytes true 5 5 4 = Ok 4%N /\ remaining_bytes true 5 7 4 = Ok 2%N.
Proof. vm_compute. split; reflexivity. Qed.
(** engine/src/command/response/context.rs:661-695 *)
Example response_list :
  (resp_feed true resp_ctx_new (bs [0; 0; 0; 17; rt RTList; 0; 2; 0; 0; 0; 3]%N ++ foo ++ bs [0; 0; 0; 3]%N ++ bar)).2 =
  PConcluded (RValue (VList [foo; bar])).
Proof. vm_compute. reflexivity. Qed.
(** engine/src/command/response/context.rs:697-730 *)
Example response_map :
  match (resp_feed true resp_ctx_new (bs [0; 0; 0; 15; rt RTMap; 0; 1; 3]%N ++ foo ++ bs [0; 0; 0; 4]%N ++ lit "bar!")).2 with
  | PConcluded (RValue (VMap m)) => size m = 1
  | _ => False
  end.
Proof. vm_compute. reflexivity. Qed.
(** engine/src/command/response/context.rs:732-739 *)
Example response_map_no_items :
  match (resp_feed true resp_ctx_new (bs [0; 0; 0; 3; rt RTMap; 0; 0]%N)).2 with
  | PConcluded (RValue (VMap m)) => size m = 0
  | _ => False
  end.
Proof. vm_compute. reflexivity. Qed.
(** engine/src/command/response/context.rs:741-764 *)
Example response_set : (resp_feed true resp_ctx_new (bs [0; 0; 0; 8; rt RTSet; 0; 2; 0; 2; 5; 3; 0]%N)).2 = PReadBytes 1.
Proof. vm_compute. reflexivity. Qed.
(** engine/src/command/response/context.rs:766-786 *)
Example response_string :
  let buf := bs [0; 0; 0; 8; rt RTString; 0; 0; 0; 3]%N in
  fed resp_ctx_new [buf ++ lit "a"; buf ++ lit "ab"; buf ++ lit "abc"] =
  (RespCtx 0 SInit, [PReadBytes 2; PReadBytes 1; PConcluded (RValue (VString (lit "abc")))]).
Proof. vm_compute. reflexivity. Qed.
(** engine/src/command/response/context.rs:788-812 *)
Example response_completeness :
  let b1 := [0; 0; 0]%N in let b2 := [0; 0; 0; 8; rt RTString]%N in let b3 := (b2 ++ [0; 0; 0; 3])%N in
  let answers := (fed resp_ctx_new [[]; bs [0%N]; bs [0; 0]%N; bs b1; bs b2; bs (b2 ++ [0; 0; 0])%N; bs b3;
    bs b3 ++ lit "a"; bs b3 ++ lit "ab"; bs b3 ++ lit "abc"]).2 in
  take 9 answers = map PReadBytes [4; 3; 2; 1; 7; 4; 3; 2; 1]%N /\
  match last answers with Some (PConcluded _) => True | _ => False end.
Proof. vm_compute. split; [reflexivity|exact I]. Qed.

(** [Response::from(v).as_bytes()] *)
Definition frame (e : env) (v : value) : outcome bytes := as_frame e (RValue v).

(** engine/src/command/response/mod.rs:328-338 *)
Example response_from_bool : frame e1 (VBoolean false) = Ok (bs [0; 0; 0; 2; rt RTBoolean; 0]%N) /\
  frame e1 (VBoolean true) = Ok (bs [0; 0; 0; 2; rt RTBoolean; 1]%N).
Proof. vm_compute. split; reflexivity. Qed.
(** engine/src/command/response/mod.rs:340-362 *)
Example response_from_bytes : frame e1 (VBytes (lit "hopdb")) = Ok (bs [0; 0; 0; 10; rt RTBytes; 0; 0; 0; 5]%N ++ lit "hopdb").
Proof. vm_compute. reflexivity. Qed.
(** engine/src/command/response/mod.rs:364-381 *)
Example response_from_bytes_empty : frame e1 (VBytes []) = Ok (bs [0; 0; 0; 5; rt RTBytes; 0; 0; 0; 0]%N).
Proof. vm_compute. reflexivity. Qed.
(** engine/src/command/response/mod.rs:383-403; 7.4 as Rust reads it *)
Example response_from_float : frame e1 <$> (VFloat <$> parse_f64 rust_text (lit "7.4")) =
  Some (Ok (bs [0; 0; 0; 9; rt RTFloat; 64; 29; 153; 153; 153; 153; 153; 154]%N)).
Proof. vm_compute. reflexivity. Qed.
(** engine/src/command/response/mod.rs:405-461 *)
Example response_from_int : frame e1 (VInteger 7) = Ok (bs [0; 0; 0; 9; rt RTInteger; 0; 0; 0; 0; 0; 0; 0; 7]%N) /\
  frame e1 (VInteger (-7)) = Ok (bs [0; 0; 0; 9; rt RTInteger; 255; 255; 255; 255; 255; 255; 255; 249]%N) /\
  frame e1 (VInteger 68125) = Ok (bs [0; 0; 0; 9; rt RTInteger; 0; 0; 0; 0; 0; 1; 10; 29]%N).
Proof. vm_compute. repeat split; reflexivity. Qed.
(** engine/src/command/response/mod.rs:463-499 *)
Example response_from_list : frame e1 (VList [lit "hop"; lit "db"]) =
  Ok (bs [0; 0; 0; 16; rt RTList; 0; 2; 0; 0; 0; 3]%N ++ lit "hop" ++ bs [0; 0; 0; 2]%N ++ lit "db").
Proof. vm_compute. reflexivity. Qed.
(** engine/src/command/response/mod.rs:501-518 *)
Example response_from_list_empty : frame e1 (VList []) = Ok (bs [0; 0; 0; 3; rt RTList; 0; 0]%N).
Proof. vm_compute. reflexivity. Qed.
(** engine/src/command/response/mod.rs:520-604 *)
Example response_from_map :
  let m := VMap (list_to_map [(lit "f", foo); (lit "123", [])]) in
  let head := bs [0; 0; 0; 20; rt RTMap; 0; 2]%N in
  let first := bs [3%N] ++ lit "123" ++ bs [0; 0; 0; 0]%N in let second := bs [1%N] ++ lit "f" ++ bs [0; 0; 0; 3]%N ++ foo in
  forallb (fun e => match frame e m with
    | Ok b => bool_decide (b = head ++ first ++ second) || bool_decide (b = head ++ second ++ first)
    | Panic => false
    end) [e1; e2] = true.
Proof. vm_compute. reflexivity. Qed.
(** engine/src/command/response/mod.rs:606-612 *)
Example response_from_map_empty : frame e1 (VMap ∅) = Ok (bs [0; 0; 0; 3; rt RTMap; 0; 0]%N).
Proof. vm_compute. reflexivity. Qed.
(** engine/src/command/response/mod.rs:614-674 *)
Example response_from_set :
  let s := VSet (list_to_set [lit "hop"; lit "db"]) in
  let head := bs [0; 0; 0; 12; rt RTSet; 0; 2]%N in
  let first := bs [0; 3]%N ++ lit "hop" in let second := bs [0; 2]%N ++ lit "db" in
  forallb (fun e => match frame e s with
    | Ok b => bool_decide (b = head ++ first ++ second) || bool_decide (b = head ++ second ++ first)
    | Panic => false
    end) [e1; e2] = true.
Proof. vm_compute. reflexivity. Qed.
(** engine/src/command/response/mod.rs:676-682 *)
Example response_from_set_empty : frame e1 (VSet ∅) = Ok (bs [0; 0; 0; 3; rt RTSet; 0; 0]%N).
Proof. vm_compute. reflexivity. Qed.
(** engine/src/command/response/mod.rs:684-713 *)
Example response_from_str : frame e1 (VString (lit "foo bar baz")) = Ok (bs [0; 0; 0; 16; rt RTString; 0; 0; 0; 11]%N ++ lit "foo bar baz").
Proof. vm_compute. reflexivity. Qed.
(** engine/src/command/response/mod.rs:715-721 *)
Example response_from_str_empty : frame e1 (VString []) = Ok (bs [0; 0; 0; 5; rt RTString; 0; 0; 0; 0]%N).
Proof. vm_compute. reflexivity. Qed.
(** engine/src/command/response/mod.rs:723-744, 746-769 *)
Example response_as_bytes : frame e1 (VInteger 3) = Ok (bs [0; 0; 0; 9; rt RTInteger; 0; 0; 0; 0; 0; 0; 0; 3]%N) /\
  copy_to e1 (RValue (VInteger 3)) [] = Ok (bs [0; 0; 0; 9; rt RTInteger; 0; 0; 0; 0; 0; 0; 0; 3]%N).
Proof. vm_compute. split; reflexivity. Qed.

(** ** Identifiers *)

(** The commands with their names and numbers, in the order of the tests. *)
Definition id_table : list (command_id * bytes * N) :=
  [(CAppend, lit "append", 20%N); (CDecrementBy, lit "decrement:by", 3%N); (CDecrement, lit "decrement", 1%N);
   (CDelete, lit "delete", 12%N); (CEcho, lit "echo", 100%N); (CExists, lit "exists", 13%N); (CGet, lit "get", 11%N);
   (CIncrementBy, lit "increment:by", 2%N); (CIncrement, lit "increment", 0%N); (CIs, lit "is", 14%N);
   (CKeys, lit "keys", 22%N); (CLength, lit "length", 21%N); (CRename, lit "rename", 15%N); (CSet, lit "set", 10%N);
   (CStats, lit "stats", 101%N); (CType, lit "type", 16%N)].
(** engine/src/command/command_id.rs:218-248 *)
Example command_id_from_str : map (fun x => command_id_of_name x.1.2) id_table = map (fun x => Some x.1.1) id_table.
Proof. vm_compute. reflexivity. Qed.
(** engine/src/command/command_id.rs:250-268 *)
Example command_id_try_from_u8 : map (fun x => command_id_of_u8 x.2) id_table = map (fun x => Some x.1.1) id_table.
Proof. vm_compute. reflexivity. Qed.
(** engine/src/command/command_id.rs:270-288 *)
Example command_id_name : map (fun x => command_name x.1.1) id_table = map (fun x => x.1.2) id_table.
Proof. vm_compute. reflexivity. Qed.
(** engine/src/command/error.rs:78-94 *)
Example error_try_from_u8 :
  let variants := [EArgumentRetrieval; EKeyNonexistent; EKeyTypeDifferent; EKeyTypeInvalid; EKeyTypeRequired; EKeyTypeUnexpected;
    EKeyUnspecified; EPreconditionFailed] in
  map (fun v => dispatch_error_of_u8 (dispatch_error_to_u8 v)) variants = map Some variants.
Proof. vm_compute. reflexivity. Qed.
(** engine/src/state/mod.rs:229-233 *)
Example state_key_type_nonexistent_key : kind <$> st_keys store_new !! foo = None.
Proof. vm_compute. reflexivity. Qed.
(** engine/src/state/mod.rs:235-243 *)
Example state_key_type_with_key : let s := store_of [(foo, VBytes (bs [1; 2]%N)); (bar, VInteger 123)] in
  kind <$> st_keys s !! foo = Some KTBytes /\ kind <$> st_keys s !! bar = Some KTInteger.
Proof. vm_compute. split; reflexivity. Qed.

(** ** engine/src/pubsub *)

(** engine/src/pubsub/mod.rs:48-54: sending on a subscription that was closed fails *)
Example pubsub_sub_close :
  (fold_left (fun o e => xr ← o; sub_step (fst xr) e) [UUpgrade 0%N; UClose 0%N; USender 0%N; USend 0%N]
    (sub_step subs_new (USubscribe foo 1%N))) ≫= (fun xr => Some (snd xr)) = Some (UEnded true).
Proof. vm_compute. reflexivity. Qed.

(** ** cli/lib/src/parse.rs *)

(** cli/lib/src/parse.rs:225-231 *)
Example cli_args : input_args rust_text CEcho KTBoolean [lit "true"] = LOk [bs [1%N]].
Proof. vm_compute. reflexivity. Qed.
(** cli/lib/src/parse.rs:233-244 *)
Example cli_command : line_command (lit "echo") = Some (CEcho, None) /\
  line_command (lit "increment:float") = Some (CIncrement, Some KTFloat) /\
  line_command (lit "increment:int") = Some (CIncrement, Some KTInteger).
Proof. vm_compute. repeat split; reflexivity. Qed.
(** cli/lib/src/parse.rs:246-254 *)
Example cli_command_is_int :
  match parse_line e1 rust_text (lit "is:int foo bar") with
  | LOk r => r_command r = CIs /\ r_key_type r = Some KTInteger /\ arg r 0 = Some foo /\ arg r 1 = Some bar /\ arg r 2 = None
  | _ => False
  end.
Proof. vm_compute. repeat split; reflexivity. Qed.
(** cli/lib/src/parse.rs:256-260 *)
Example cli_command_invalid_key_type : line_command (lit "increment:floatt") = None /\ line_command (lit "increment:") = None.
Proof. vm_compute. split; reflexivity. Qed.
(** cli/lib/src/parse.rs:262-275 *)
Example cli_key_type :
  map (fun s => key_type_of_text (lit s)) ["boolean"; "bool"; "bytes"; "float"; "integer"; "int"; "list"; "map"; "set"; "string"; "str"]%string =
  map Some [KTBoolean; KTBoolean; KTBytes; KTFloat; KTInteger; KTInteger; KTList; KTMap; KTSet; KTString; KTString].
Proof. vm_compute. reflexivity. Qed.
(** cli/lib/src/parse.rs:277-287 *)
Example cli_key_type_name :
  map key_type_name [KTBoolean; KTBytes; KTFloat; KTInteger; KTList; KTMap; KTSet; KTString] =
  map (fun s => lit s) ["bool"; "bytes"; "float"; "int"; "list"; "map"; "set"; "str"]%string.
Proof. vm_compute. reflexivity. Qed.
(** cli/lib/src/parse.rs:289-306 *)
Example cli_parse :
  match parse_line e1 rust_text (lit "echo"), parse_line e1 rust_text (lit "increment:int"),
        parse_line e1 rust_text (lit "increment:by:int foo 3") with
  | LOk r1, LOk r2, LOk r3 =>
    (r_command r1 = CEcho /\ args_all r1 = None) /\
    (r_command r2 = CIncrement /\ r_key_type r2 = Some KTInteger) /\
    r_command r3 = CIncrementBy /\ r_key_type r3 = Some KTInteger /\ is_Some (args_all r3) /\ arg_count r3 = 2%N /\
    arg r3 0 = Some foo /\ arg r3 1 = Some (i64_enc 3)
  | _, _, _ => False
  end.
Proof. vm_compute. repeat split; try reflexivity. by eexists. Qed.

(** ** lib/timer/src/lib.rs.  [Duration::new(s, ns)] is that many nanoseconds. *)

(** lib/timer/src/lib.rs:290-298 *)
Example timer_corrects_negative_seconds : parse_timespec (Timespec (-1) 5000000) = duration_new 0 5000000.
Proof. vm_compute. reflexivity. Qed.
(** lib/timer/src/lib.rs:300-308 *)
Example timer_corrects_overflowing_nanos : parse_timespec (Timespec 3 9223372036854775807) = duration_new 2 999999999.
Proof. vm_compute. reflexivity. Qed.
(** lib/timer/src/lib.rs:310-318 *)
Example timer_corrects_negative_nanos : parse_timespec (Timespec 3 (-1)) = duration_new 3 0.
Proof. vm_compute. reflexivity. Qed.
(** lib/timer/src/lib.rs:320-326 *)
Example timer_new_defaults : t_start timer_new = None /\ t_stop timer_new = None.
Proof. vm_compute. split; reflexivity. Qed.
(** Two readings of the clock. *)
Definition now1 : timespec := Timespec 1600000000 5.
Definition now2 : timespec := Timespec 1600000001 3.
(** lib/timer/src/lib.rs:328-337 *)
Example timer_start_cant_start_again :
  let '(t1, b1) := timer_start timer_new now1 in let '(t2, b2) := timer_start t1 now2 in
  b1 = true /\ b2 = false /\ t_start t2 = t_start t1 /\ is_Some (t_start t1).
Proof. vm_compute. repeat split; try reflexivity. by eexists. Qed.
(** lib/timer/src/lib.rs:339-345 *)
Example timer_stop_doesnt_stop_again :
  let t1 := (timer_start timer_new now1).1 in let '(t2, o1) := timer_stop t1 now2 in let '(_, o2) := timer_stop t2 now2 in
  match o1, o2 with Ok (Some _), Ok None => True | _, _ => False end.
Proof. vm_compute. exact I. Qed.
(** lib/timer/src/lib.rs:347-354, 356-362 *)
Example timer_reset_is_new :
  let t1 := (timer_start timer_new now1).1 in timer_reset (timer_stop t1 now2).1 = timer_new /\ timer_reset t1 = timer_new.
Proof. vm_compute. split; reflexivity. Qed.
(** lib/timer/src/lib.rs:364-372 *)
Example timer_duration_requires_finish :
  let t1 := (timer_start timer_new now1).1 in let t2 := (timer_stop t1 now2).1 in
  timer_duration timer_new = Ok None /\ timer_duration t1 = Ok None /\
  match timer_duration t2 with Ok (Some _) => True | _ => False end.
Proof. vm_compute. repeat split; reflexivity. Qed.
(** lib/timer/src/lib.rs:374-382 *)
Example timer_running :
  let t1 := (timer_start timer_new now1).1 in let t2 := (timer_stop t1 now2).1 in
  timer_is_running timer_new = false /\ timer_is_running t1 = true /\ timer_is_running t2 = false.
Proof. vm_compute. repeat split; reflexivity. Qed.

(** ** client/src/backend/memory.rs *)

Definition is_ok {A} (r : client_res A) : bool := match r with ROk _ => true | _ => false end.

(** client/src/backend/memory.rs:361-373 *)
Example memory_append : let '(s, r) := mem_set e1 store_new foo (VString foo) in
  is_ok r && is_ok (mem_append e1 s foo (VString bar)).2 = true.
Proof. vm_compute. reflexivity. Qed.
(** client/src/backend/memory.rs:375-383 *)
Example memory_decrement : (mem_decrement e1 store_new foo None).2 = ROk (VInteger (-1)).
Proof. vm_compute. reflexivity. Qed.
(** client/src/backend/memory.rs:385-389 *)
Example memory_echo : (mem_echo e1 store_new (lit "test")).2 = ROk [lit "test"].
Proof. vm_compute. reflexivity. Qed.
(** client/src/backend/memory.rs:391-398 *)
Example memory_is : let s := (mem_set e1 store_new foo (VBoolean true)).1 in
  (mem_is e1 s KTBoolean [foo]).2 = ROk true /\ (mem_is e1 s KTInteger [foo]).2 = ROk false.
Proof. vm_compute. split; reflexivity. Qed.
(** client/src/backend/memory.rs:400-410, 412-423, 425-433, 435-443, 445-456 *)
Example memory_lengths :
  let pair := list_to_map [(foo, lit "value"); (bar, lit "value")] : gmap bytes bytes in
  forallb (fun x : value * Z =>
    let '(s, r) := mem_set e1 store_new foo x.1 in
    is_ok r && match (mem_length e1 s foo (Some (kind x.1))).2 with ROk z => (z =? x.2)%Z | _ => false end)
  [(VBytes foo, 3%Z); (VList [foo; bar], 2%Z); (VMap pair, 2%Z); (VSet (list_to_set [foo; bar]), 2%Z); (VString foo, 3%Z)] = true.
Proof. vm_compute. reflexivity. Qed.
(** The value returned, and the one at the key then. *)
Definition set_and_see (v : value) : client_res value * option value :=
  let '(s, r) := mem_set e1 store_new foo v in (r, st_keys s !! foo).
(** client/src/backend/memory.rs:458-487, 489-504, 522-538, 540-555 *)
Example memory_sets :
  forall v, v ∈ [VBoolean true; VBoolean false; VBytes (bs [1; 2; 3]%N); VInteger 123; VString bar] -> set_and_see v = (ROk v, Some v).
Proof.
  intros v Hv. rewrite !elem_of_cons in Hv.
  destruct Hv as [->|[->|[->|[->|[->|[]%elem_of_nil]]]]]; vm_compute; reflexivity.
Qed.
(** client/src/backend/memory.rs:506-520 *)
Example memory_set_float :
  match (VFloat <$> parse_f64 rust_text (lit "1.23")) with
  | Some v => match set_and_see v with (ROk (VFloat _), Some (VFloat _)) => True | _ => False end
  | None => False
  end.
Proof. vm_compute. exact I. Qed.

(** ** The examples of the documentation *)

(** What the calls of a session with a new [Client::memory()] return. *)
Fixpoint returned (s : store) (cs : list client_call) : list (client_res reply) :=
  match cs with
  | [] => []
  | c :: cs => let '(s', r) := mem_call e1 s c in r :: returned s' cs
  end.
Definition memory (cs : list client_call) : list (client_res reply) := returned store_new cs.
Definition val (v : value) : client_res reply := ROk (RpValue v).

(** client/src/lib.rs:66-74 *)
Example doc_memory : memory [KIncrementInt foo None; KIncrementInt foo None] = [val (VInteger 1); val (VInteger 2)].
Proof. vm_compute. reflexivity. Qed.
(** client/src/lib.rs:96-106 *)
Example doc_append : last (memory [KSetTyped foo (VString (lit "this is")); KAppendTyped foo (VString (lit " a string"))]) =
  Some (val (VString (lit "this is a string"))).
Proof. vm_compute. reflexivity. Qed.
(** client/src/lib.rs:129-141 *)
Example doc_delete : match memory [KIncrementInt foo None; KDelete foo; KIncrementInt foo None] with
  | [r1; r2; r3] => r1 = val (VInteger 1) /\ is_ok r2 = true /\ r3 = val (VInteger 1)
  | _ => False
  end.
Proof. vm_compute. repeat split; reflexivity. Qed.
(** client/src/lib.rs:165-177 *)
Example doc_exists : match memory [KExists [foo]; KIncrement foo None; KExists [foo]] with
  | [r1; r2; r3] => r1 = ROk (RpBool false) /\ is_ok r2 = true /\ r3 = ROk (RpBool true)
  | _ => False
  end.
Proof. vm_compute. repeat split; reflexivity. Qed.
(** client/src/lib.rs:197-207, 212-227 *)
Example doc_get : last (memory [KSetTyped foo (VInteger 123); KGetTyped foo KTInteger]) = Some (val (VInteger 123)) /\
  last (memory [KSetTyped foo (VString (lit "this is a string")); KGet foo]) = Some (val (VString (lit "this is a string"))).
Proof. vm_compute. split; reflexivity. Qed.
(** client/src/lib.rs:248-255, 259-267 *)
Example doc_increment : memory [KIncrementInt foo None] = [val (VInteger 1)] /\
  memory [KIncrementInt foo (Some 2%Z); KIncrementInt foo (Some 4%Z)] = [val (VInteger 2); val (VInteger 6)].
Proof. vm_compute. split; reflexivity. Qed.
(** client/src/lib.rs:285-304 *)
Example doc_is :
  match parse_f64 rust_text (lit "1.23") with
  | Some x => match memory [KSetTyped foo (VInteger 123); KIs KTInteger [foo]; KSetTyped bar (VFloat x); KIs KTInteger [foo; bar]] with
    | [r1; r2; r3; r4] => is_ok r1 && is_ok r3 = true /\ r2 = ROk (RpBool true) /\ r4 = ROk (RpBool false)
    | _ => False
    end
  | None => False
  end.
Proof. vm_compute. repeat split; reflexivity. Qed.
(** client/src/lib.rs:315-324 *)
Example doc_key_type : last (memory [KSetTyped foo (VInteger 123); KKeyType foo]) = Some (ROk (RpType KTInteger)).
Proof. vm_compute. reflexivity. Qed.
(** client/src/lib.rs:335-344 *)
Example doc_keys : last (memory [KSetTyped foo (VMap {[lit "key" := lit "value"]}); KKeys foo]) = Some (ROk (RpItems [lit "key"])).
Proof. vm_compute. reflexivity. Qed.
(** client/src/lib.rs:361-370 *)
Example doc_length : last (memory [KSetTyped foo (VList [foo; bar]); KLength foo None]) = Some (ROk (RpInt 2)).
Proof. vm_compute. reflexivity. Qed.
(** client/src/lib.rs:374-387 *)
Example doc_length_typed :
  match memory [KSetTyped foo (VString (lit "this is a string")); KLength foo (Some KTString); KLength foo (Some KTList)] with
  | [r1; r2; r3] => is_ok r1 = true /\ r2 = ROk (RpInt 16) /\ match r3 with RErr _ => True | _ => False end
  | _ => False
  end.
Proof. vm_compute. repeat split; reflexivity. Qed.
(** client/src/lib.rs:401-410; it must not fail *)
Example doc_rename : forallb is_ok (memory [KIncrementInt foo None; KRename foo bar; KIncrementInt foo None]) = true.
Proof. vm_compute. reflexivity. Qed.
(** client/src/lib.rs:431-440 *)
Example doc_set : memory [KSetTyped foo (VInteger 123); KSetTyped foo (VString bar)] = [val (VInteger 123); val (VString bar)].
Proof. vm_compute. reflexivity. Qed.
(** client/src/lib.rs:454-462; it must not fail *)
Example doc_stats : forallb is_ok (memory [KStats]) = true.
Proof. vm_compute. reflexivity. Qed.
(** client/src/request/append/mod.rs:30-40 *)
Example doc_append_bytes :
  match last (memory [KSetTyped foo (VBytes (bs [1; 2; 3; 4; 5]%N)); KAppendTyped foo (VBytes (bs [1; 2; 3]%N))]) with
  | Some (ROk (RpValue (VBytes b))) => length b = 8
  | _ => False
  end.
Proof. vm_compute. reflexivity. Qed.
(** client/src/request/set/mod.rs:84-91, 105-112, 153-160, 177-184, 243-250, 267-277; they must not fail *)
Example doc_sets :
  forallb (fun c => forallb is_ok (memory [c]))
    [KSetTyped foo (VBoolean true); KSetTyped foo (VBytes (bs [1; 2; 3; 4; 5]%N)); KSetTyped foo (VInteger 123);
     KSetTyped foo (VList [foo; bar; lit "baz"]); KSetTyped foo (VString bar); KSet foo (VString bar)] = true.
Proof. vm_compute. reflexivity. Qed.
(** client/src/request/set/mod.rs:212-221, client/src/request/get/mod.rs:226-235 *)
Example doc_set_set :
  let two := (list_to_set [foo; bar; foo] : gset bytes) in
  forallb (fun cs => match last (memory cs) with
    | Some (ROk (RpValue (VSet s))) => (size s =? 2)%nat
    | _ => false
    end) [[KSetTyped foo (VSet two)]; [KSetTyped foo (VSet two); KGetTyped foo KTSet]] = true.
Proof. vm_compute. reflexivity. Qed.
(** client/src/request/get/mod.rs:43-54, 91-101, 115-124, 167-176, 195-202, 257-266 *)
Example doc_gets :
  forall v, v ∈ [VBoolean true; VBytes (bs [1; 2; 3; 4; 5]%N); VInteger 123; VList [foo; bar; lit "baz"]; VString bar] ->
    memory [KSetTyped foo v; KGetTyped foo (kind v)] = [val v; val v].
Proof.
  intros v Hv. rewrite !elem_of_cons in Hv.
  destruct Hv as [->|[->|[->|[->|[->|[]%elem_of_nil]]]]]; vm_compute; reflexivity.
Qed.
(** client/src/request/set/mod.rs:125-132, client/src/request/get/mod.rs:137-146: 1.23, and more than 1.0.  The bits of
    positive floats are in the order of the floats. *)
Example doc_get_float :
  match parse_f64 rust_text (lit "1.23"), parse_f64 rust_text (lit "1.0") with
  | Some x, Some one => match last (memory [KSetTyped foo (VFloat x); KGetTyped foo KTFloat]) with
    | Some (ROk (RpValue (VFloat y))) => (one <? y)%N = true
    | _ => False
    end
  | _, _ => False
  end.
Proof. vm_compute. reflexivity. Qed.
(** client/src/request/exists.rs:24-41, client/src/request/is.rs:25-42 *)
Example doc_exists_keys :
  checked_keys [foo; bar] = inr [foo; bar] /\
  match memory [KIncrement foo None; KExists [foo]; KExists [foo; bar]] with
  | [r1; r2; r3] => is_ok r1 = true /\ r2 = ROk (RpBool true) /\ r3 = ROk (RpBool false)
  | _ => False
  end.
Proof. vm_compute. repeat split; reflexivity. Qed.
(** engine/src/hop.rs:65-74 *)
Example doc_builder : let h := hop_build [SetPubsub false; SetSessionsMax 150] in
  pubsub_enabled (h_config h) = false /\ sessions_active_max (h_config h) = 150%N.
Proof. vm_compute. split; reflexivity. Qed.
(** lib/metrics/src/lib.rs:129-147 *)
Example doc_snapshot :
  match writer_increment true (Some metrics_new) foo with
  | Ok (Some m1, _) => match writer_increment true (Some (m1 : metrics bytes)) foo with
    | Ok (i2, _) => reader_counter i2 foo = Some 2%N /\ snapshot_counter (metrics_snapshot m1) foo = Some 1%N
    | Panic => False
    end
  | _ => False
  end.
Proof. vm_compute. split; reflexivity. Qed.
(** lib/timer/src/lib.rs:14-48, 106-112, 133-144, 165-175, 187-198, 209-219 *)
Example doc_timer :
  let '(t1, b1) := timer_start timer_new now1 in let '(t2, o) := timer_stop t1 now2 in
  timer_is_running timer_new = false /\ b1 = true /\ timer_is_running t1 = true /\ timer_is_running t2 = false /\
  match o with Ok (Some d) => timer_duration t2 = Ok (Some d) | _ => False end /\
  timer_duration (timer_reset t2) = Ok None /\ timer_is_running (timer_reset t1) = false.
Proof. vm_compute. repeat split; reflexivity. Qed.
