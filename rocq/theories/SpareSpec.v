(** Additions and renames destroy nothing that is there while they run (C128). *)
From Verif Require Import Locks LockSpec LockScripts LockScriptSpec.
From Verif Require Import Bytes Value CommandId Request RequestSpec Response Metrics Prog Commands HistorySpec
  Scripts LinSpec MomentSpec Client ClientSpec ClientProps MemTasks MemTaskSpec SeenSpec WroteSpec LedgerSpec.
From stdpp Require Import gmap list.

(** The calls that add to what is at a key. *)
Definition adds (c : call) : Prop :=
  match r_command (c_req c) with
  | CAppend | CIncrement | CDecrement | CIncrementBy | CDecrementBy => True
  | _ => False
  end.

(** The keys that a call may change. *)
Definition may_touch (c : call) (k : bytes) : Prop :=
  match r_command (c_req c) with
  | CDelete | CSet | CAppend | CIncrement | CDecrement | CIncrementBy | CDecrementBy => arg (c_req c) 0 = Some k
  | CRename => arg (c_req c) 0 = Some k \/ arg (c_req c) 1 = Some k
  | CExists | CGet | CIs | CType | CLength | CKeys | CEcho | CStats => False
  end.

(** The same for calls of a memory client. *)
Definition task_adds (c : client_call) : Prop :=
  match c with
  | KAppend _ _ | KAppendTyped _ _ | KIncrement _ _ | KDecrement _ _ | KIncrementBy _ _ | KDecrementBy _ _
  | KIncrementInt _ _ | KDecrementInt _ _ | KIncrementFloat _ _ | KDecrementFloat _ _ => True
  | _ => False
  end.

Definition task_may_touch (c : client_call) (k : bytes) : Prop :=
  (exists w, sets_to c k w) \/ (exists t, opens_with c k t) \/ c = KDelete k \/
  (exists d, c = KRename k d) \/ (exists k0, c = KRename k0 k).
