(** Tasks that race for one key through a shared memory client (C116, C117). *)
From Verif Require Import Bytes Value CommandId Request Response Metrics Prog Commands EngineSpec
  Locks LockSpec LockScripts LockScriptSpec Client ClientSpec MemTasks MemTaskSpec.
From stdpp Require Import gmap list.
From Coq Require Import NArith ZArith.

(** The call sets [k] to [v]. *)
Definition sets_value (c : client_call) (k : bytes) (v : value) : Prop :=
  c = KSet k v \/ c = KSetTyped k v.

(** The call takes what is at [k] away: it deletes [k] or renames it to another name. *)
Definition takes_away (k : bytes) (c : client_call) : Prop :=
  c = KDelete k \/ exists b, b <> k /\ c = KRename k b.

(** What such a call leaves behind: the name it returns. *)
Definition returned_name (c : client_call) : bytes :=
  match c with KRename _ b => b | KDelete k => k | _ => [] end.

(** Nothing but calls that take what is at [k] may change [b]. *)
Definition only_by_taking (k b : bytes) (tasks : list task) : Prop :=
  forall e c, made_by_one tasks e c -> changes c b -> takes_away k c.

(** What is returned by a call [a] that was sent and did not take [k]: that there is nothing to take, and then
    the call [won] that took it had begun before [a] returned; or, for a rename, that the new name is in use.
    If only such calls may change that name, it was in use at the beginning or because of [won]. *)
Definition lost_to (k : bytes) (tasks : list task) (s0 : store) (sooner : nat * nat -> nat * nat -> Prop)
  (won : option (nat * nat)) (a : nat * nat) (c : client_call) (r : client_res reply) : Prop :=
  (r = RErr (CERunningCommand (match c with KDelete _ => EPreconditionFailed | _ => EKeyNonexistent end)) /\
   exists w, won = Some w /\ ~ sooner a w) \/
  exists b, c = KRename k b /\ r = RErr (CERunningCommand EPreconditionFailed) /\
    (only_by_taking k b tasks -> is_Some (st_keys s0 !! b) \/
       exists w e, won = Some w /\ task_call tasks w = Some (e, KRename k b) /\ ~ sooner a w).
