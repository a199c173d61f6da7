(** C35, the part about reading: what a client may learn about a reserved key. *)
From Verif Require Import Bytes Value CommandId Request Metrics Prog HistorySpec.
From stdpp Require Import gmap list.

(** Two states that a client limited to the ordinary keys cannot tell apart. *)
Definition same_outside (s s' : store) : Prop :=
  st_counters s = st_counters s' /\
  forall k : bytes, ~ reserved k -> st_keys s !! k = st_keys s' !! k.

(** The requests that keep what is stored at reserved keys to themselves. *)
Definition discreet (req : request) : bool :=
  match r_command req with
  | CGet | CIncrement | CIncrementBy | CDecrement | CDecrementBy | CEcho | CStats => true
  | CAppend | CKeys | CLength | CSet => match r_key_type req with Some _ => true | None => false end
  | _ => false
  end.
