(** A key keeps its type until it is set, deleted or renamed (C127). *)
From Verif Require Import Locks LockSpec LockScripts LockScriptSpec.
From Verif Require Import Bytes Value CommandId Request RequestSpec Response Metrics Prog Commands HistorySpec
  Scripts LinSpec MomentSpec Client ClientSpec ClientProps MemTasks MemTaskSpec SeenSpec WroteSpec LedgerSpec.
From stdpp Require Import gmap list.

(** The calls that may give a key another type, or take it away: Set, Delete, and Rename from it or to it. *)
Definition reshapes (c : call) (k : bytes) : Prop :=
  match r_command (c_req c) with
  | CSet | CDelete => arg (c_req c) 0 = Some k
  | CRename => arg (c_req c) 0 = Some k \/ arg (c_req c) 1 = Some k
  | _ => False
  end.

(** The same for calls of a memory client. *)
Definition task_reshapes (c : client_call) (k : bytes) : Prop :=
  (exists w, sets_to c k w) \/ c = KDelete k \/ (exists d, c = KRename k d) \/ (exists k0, c = KRename k0 k).
