(** Command ids and error enums: engine/src/command/command_id.rs,
    engine/src/command/error.rs, engine/src/command/request/context.rs *)
From Verif Require Import Bytes.
From stdpp Require Import list.
From Coq Require Import NArith.
From Coq.Strings Require Import String.
Open Scope string_scope.

(** engine/src/command/command_id.rs:27-44 *)
Inductive command_id :=
| CIncrement | CDecrement | CIncrementBy | CDecrementBy
| CSet | CGet | CDelete | CExists | CIs | CRename | CType
| CAppend | CLength | CKeys | CEcho | CStats.

Global Instance command_id_eq_dec : EqDecision command_id.
Proof. solve_decision. Defined.

(** engine/src/command/command_id.rs:8-12 *)
Inductive argument_notation := ANMultiple | ANNone | ANOne.
(** engine/src/command/command_id.rs:15-20 *)
Inductive key_notation := KNMultiple | KNNone | KNOne | KNTwo.

(** [id as u8], engine/src/command/command_id.rs:27-44 *)
Definition command_id_to_u8 (c : command_id) : N :=
  match c with
  | CIncrement => 0 | CDecrement => 1 | CIncrementBy => 2 | CDecrementBy => 3
  | CSet => 10 | CGet => 11 | CDelete => 12 | CExists => 13 | CIs => 14
  | CRename => 15 | CType => 16
  | CAppend => 20 | CLength => 21 | CKeys => 22
  | CEcho => 100 | CStats => 101
  end%N.

(** [CommandId::try_from(u8)], engine/src/command/command_id.rs:156-180 *)
Definition command_id_of_u8 (n : N) : option command_id :=
  match n with
  | 0 => Some CIncrement | 1 => Some CDecrement
  | 2 => Some CIncrementBy | 3 => Some CDecrementBy
  | 10 => Some CSet | 11 => Some CGet | 12 => Some CDelete | 13 => Some CExists
  | 14 => Some CIs | 15 => Some CRename | 16 => Some CType
  | 20 => Some CAppend | 21 => Some CLength | 22 => Some CKeys
  | 100 => Some CEcho | 101 => Some CStats
  | _ => None
  end%N.

(** engine/src/command/command_id.rs:47-69 *)
Definition argument_notation_of (c : command_id) : argument_notation :=
  match c with
  | CAppend => ANOne
  | CDelete => ANOne
  | CDecrement => ANNone
  | CDecrementBy => ANOne
  | CEcho => ANMultiple
  | CExists => ANNone
  | CGet => ANNone
  | CIncrement => ANNone
  | CIncrementBy => ANOne
  | CIs => ANNone
  | CKeys => ANNone
  | CLength => ANOne
  | CRename => ANNone
  | CSet => ANOne
  | CStats => ANNone
  | CType => ANNone
  end.

(** engine/src/command/command_id.rs:71-93 *)
Definition key_notation_of (c : command_id) : key_notation :=
  match c with
  | CAppend => KNOne
  | CDelete => KNOne
  | CDecrement => KNOne
  | CDecrementBy => KNOne
  | CEcho => KNNone
  | CExists => KNMultiple
  | CGet => KNOne
  | CIncrement => KNOne
  | CIncrementBy => KNOne
  | CIs => KNMultiple
  | CKeys => KNOne
  | CLength => KNOne
  | CRename => KNTwo
  | CSet => KNOne
  | CStats => KNNone
  | CType => KNOne
  end.

(** engine/src/command/command_id.rs:95-100 *)
Definition is_simple (c : command_id) : bool :=
  match argument_notation_of c, key_notation_of c with
  | ANNone, KNNone => true
  | _, _ => false
  end.

(** engine/src/command/command_id.rs:102-121 *)
Definition command_name (c : command_id) : bytes :=
  lit match c with
  | CAppend => "append"
  | CDecrementBy => "decrement:by"
  | CDecrement => "decrement"
  | CDelete => "delete"
  | CEcho => "echo"
  | CExists => "exists"
  | CGet => "get"
  | CIncrementBy => "increment:by"
  | CIncrement => "increment"
  | CIs => "is"
  | CKeys => "keys"
  | CLength => "length"
  | CRename => "rename"
  | CSet => "set"
  | CStats => "stats"
  | CType => "type"
  end.

(** Equality of strings, as in the [match] of engine/src/command/command_id.rs:133-156. *)
Definition bytes_eqb (a b : bytes) : bool := bool_decide (a = b).

(** [CommandId::from_str], engine/src/command/command_id.rs:130-154 *)
Definition command_id_of_name (s : bytes) : option command_id :=
  if bytes_eqb s (lit "append") then Some CAppend
  else if bytes_eqb s (lit "decrement:by") then Some CDecrementBy
  else if bytes_eqb s (lit "decrement") then Some CDecrement
  else if bytes_eqb s (lit "delete") then Some CDelete
  else if bytes_eqb s (lit "echo") then Some CEcho
  else if bytes_eqb s (lit "exists") then Some CExists
  else if bytes_eqb s (lit "get") then Some CGet
  else if bytes_eqb s (lit "increment:by") then Some CIncrementBy
  else if bytes_eqb s (lit "increment") then Some CIncrement
  else if bytes_eqb s (lit "is") then Some CIs
  else if bytes_eqb s (lit "keys") then Some CKeys
  else if bytes_eqb s (lit "length") then Some CLength
  else if bytes_eqb s (lit "rename") then Some CRename
  else if bytes_eqb s (lit "set") then Some CSet
  else if bytes_eqb s (lit "stats") then Some CStats
  else if bytes_eqb s (lit "type") then Some CType
  else None.

(** engine/src/command/error.rs:11-20 *)
Inductive dispatch_error :=
| EArgumentRetrieval | EKeyUnspecified | EKeyTypeDifferent | EKeyTypeUnexpected
| EPreconditionFailed | EKeyNonexistent | EKeyTypeRequired | EKeyTypeInvalid.

Global Instance dispatch_error_eq_dec : EqDecision dispatch_error.
Proof. solve_decision. Defined.

(** [err as u8], engine/src/command/error.rs:11-20 *)
Definition dispatch_error_to_u8 (e : dispatch_error) : N :=
  match e with
  | EArgumentRetrieval => 0 | EKeyUnspecified => 1 | EKeyTypeDifferent => 2
  | EKeyTypeUnexpected => 3 | EPreconditionFailed => 4 | EKeyNonexistent => 5
  | EKeyTypeRequired => 6 | EKeyTypeInvalid => 7
  end%N.

(** [DispatchError::try_from(u8)], engine/src/command/error.rs:39-55 *)
Definition dispatch_error_of_u8 (n : N) : option dispatch_error :=
  match n with
  | 0 => Some EArgumentRetrieval | 1 => Some EKeyUnspecified
  | 2 => Some EKeyTypeDifferent | 3 => Some EKeyTypeUnexpected
  | 4 => Some EPreconditionFailed | 5 => Some EKeyNonexistent
  | 6 => Some EKeyTypeRequired | 7 => Some EKeyTypeInvalid
  | _ => None
  end%N.

(** engine/src/command/request/context.rs:11-14 *)
Inductive parse_error := PECommandIdInvalid | PEKeyTypeInvalid.

Global Instance parse_error_eq_dec : EqDecision parse_error.
Proof. solve_decision. Defined.

(** [err as u8], engine/src/command/request/context.rs:11-14 *)
Definition parse_error_to_u8 (e : parse_error) : N :=
  match e with PECommandIdInvalid => 0 | PEKeyTypeInvalid => 1 end%N.

(** [ParseError::try_from(u8)], engine/src/command/request/context.rs:16-26 *)
Definition parse_error_of_u8 (n : N) : option parse_error :=
  match n with
  | 0 => Some PECommandIdInvalid
  | 1 => Some PEKeyTypeInvalid
  | _ => None
  end%N.
