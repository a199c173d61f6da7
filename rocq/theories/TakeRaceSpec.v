(** Clients that delete and rename the same key at the same time (C115). *)
From Verif Require Import Bytes Value CommandId Request Metrics Prog Commands EngineSpec WireSpec RequestSpec
  HistorySpec ConcSpec Scripts LinSpec KeyLinSpec.
From stdpp Require Import gmap list.
From Coq Require Import NArith ZArith.

(** The call renames [k] to [b]. *)
Definition sent_to (k b : bytes) (c : call) : Prop := exists l, asks (c_req c) CRename None (k :: b :: l).

(** The call takes what is at [k] away: it deletes [k] or renames it to another name. *)
Definition takes (k : bytes) (c : call) : Prop := deletes c k \/ exists b, b <> k /\ sent_to k b c.

(** Nothing else may change [k]. *)
Definition only_taken (k : bytes) (scripts : list (list call)) : Prop :=
  forall c, issued scripts c -> may_write (c_req c) k -> takes k c.

(** Nothing but calls that take what is at [k] may change [b]. *)
Definition only_through (k b : bytes) (scripts : list (list call)) : Prop :=
  forall c, issued scripts c -> may_write (c_req c) b -> takes k c.

(** What a call that took [k] answers: the deleted or the new name. *)
Definition answers_name (k : bytes) (c : call) (r : cres) : Prop :=
  (deletes c k /\ responds (c_env c) (c_res c) (VBytes k) r) \/
  exists b, sent_to k b c /\ responds (c_env c) (c_res c) (VBytes b) r.

(** What a call [a] reports that did not take [k]: that there is nothing to take, and then the call [won] that
    took it had begun before [a] returned; or, for a rename, that the new name is in use.  If only such
    calls may change that name, it was in use at the beginning or because of [won]. *)
Definition reports_loss (k : bytes) (scripts : list (list call)) (s0 : store)
  (sooner : nat * nat -> nat * nat -> Prop) (won : option (nat * nat)) (a : nat * nat) (c : call) (r : cres) : Prop :=
  (deletes c k /\ r = CErr EPreconditionFailed (c_res c) /\ exists w, won = Some w /\ ~ sooner a w) \/
  exists b, sent_to k b c /\
  ((r = CErr EKeyNonexistent (c_res c) /\ exists w, won = Some w /\ ~ sooner a w) \/
   (r = CErr EPreconditionFailed (c_res c) /\
    (only_through k b scripts -> is_Some (st_keys s0 !! b) \/
       exists w c', won = Some w /\ call_at scripts w = Some c' /\ sent_to k b c' /\ ~ sooner a w))).
