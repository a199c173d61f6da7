(** The constants of the protocol, as tables; the specification of C37's codes and names.
    A client written in another language would be written from these tables. *)
From Coq Require Import String.
From Verif Require Import Bytes Value CommandId Response Metrics.
From stdpp Require Import list.
From Coq Require Import NArith.

(** Command, its byte in a request, its name. *)
Definition command_table : list (command_id * N * string) :=
  [ (CIncrement,   0%N,   "increment"%string);
    (CDecrement,   1%N,   "decrement"%string);
    (CIncrementBy, 2%N,   "increment:by"%string);
    (CDecrementBy, 3%N,   "decrement:by"%string);
    (CSet,         10%N,  "set"%string);
    (CGet,         11%N,  "get"%string);
    (CDelete,      12%N,  "delete"%string);
    (CExists,      13%N,  "exists"%string);
    (CIs,          14%N,  "is"%string);
    (CRename,      15%N,  "rename"%string);
    (CType,        16%N,  "type"%string);
    (CAppend,      20%N,  "append"%string);
    (CLength,      21%N,  "length"%string);
    (CKeys,        22%N,  "keys"%string);
    (CEcho,        100%N, "echo"%string);
    (CStats,       101%N, "stats"%string) ].

(** Key type and its byte in a request. *)
Definition key_type_table : list (key_type * N) :=
  [ (KTBytes, 0%N); (KTBoolean, 1%N); (KTFloat, 2%N); (KTInteger, 3%N);
    (KTString, 4%N); (KTList, 5%N); (KTMap, 6%N); (KTSet, 7%N) ].

(** What a response is and its byte. *)
Definition response_type_table : list (response_type * N) :=
  [ (RTBoolean, 0%N); (RTBytes, 1%N); (RTFloat, 2%N); (RTInteger, 3%N); (RTList, 4%N);
    (RTMap, 5%N); (RTSet, 6%N); (RTString, 7%N); (RTParseError, 8%N);
    (RTDispatchError, 9%N) ].

(** Why a command failed and its byte. *)
Definition dispatch_error_table : list (dispatch_error * N) :=
  [ (EArgumentRetrieval, 0%N); (EKeyUnspecified, 1%N); (EKeyTypeDifferent, 2%N);
    (EKeyTypeUnexpected, 3%N); (EPreconditionFailed, 4%N); (EKeyNonexistent, 5%N);
    (EKeyTypeRequired, 6%N); (EKeyTypeInvalid, 7%N) ].

(** Why a request was not understood and its byte. *)
Definition parse_error_table : list (parse_error * N) :=
  [ (PECommandIdInvalid, 0%N); (PEKeyTypeInvalid, 1%N) ].

(** A counter and its name in the answer of [stats]. *)
Definition metric_table : list (metric * string) :=
  [ (MCommandsSuccessful, "commands_successful"%string);
    (MCommandsErrored,    "commands_errored"%string);
    (MSessionsStarted,    "sessions_started"%string);
    (MSessionsEnded,      "sessions_ended"%string) ].
