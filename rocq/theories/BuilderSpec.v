(** The outcome of every chain of builder calls (C04), said without a builder:
    a list of arguments that grows. *)
From Verif Require Import Bytes Value CommandId Request RequestSpec.
From stdpp Require Import gmap list.
From Coq Require Import NArith.

(** How many arguments can be pushed before the process panics. *)
Definition room (e : env) : N := if debug e then 255 else 256.

(** The items in front of the first empty one. *)
Fixpoint before_empty (l : list bytes) : list bytes :=
  match l with
  | [] | [] :: _ => []
  | x :: r => x :: before_empty r
  end.

(** The arguments a call pushes before it returns, also when it returns an
    error. *)
Definition pushed (e : env) (c : builder_call) : list bytes :=
  match c with
  | CallBytes [] | CallValue (VBytes []) | CallValue (VString []) => []
  | CallValue (VList l) => before_empty l
  | _ => call_args e c
  end.

(** The error it returns after that. *)
Definition complaint (c : builder_call) : option builder_error :=
  if call_empty c then
    Some match c with CallBytes _ => BEArgumentEmpty | CallValue _ => BEValueEmpty end
  else None.

(** The number the "too many arguments" check looks at: the entries of a map
    count once, single values are not checked. *)
Definition counted (c : builder_call) : N :=
  match c with
  | CallValue (VList l) => lenN l
  | CallValue (VMap m) => N.of_nat (size m)
  | CallValue (VSet s) => N.of_nat (size s)
  | _ => 0
  end.

(** [chain_end e l calls]: how a chain of calls ends on a builder that holds the
    arguments [l]: with a panic ([None]), or with the arguments it then holds and
    the error that stopped it, if any. *)
Fixpoint chain_end (e : env) (l : list bytes) (calls : list builder_call)
  : option (list bytes * option builder_error) :=
  match calls with
  | [] => Some (l, None)
  | c :: rest =>
    let l' := l ++ pushed e c in
    if (255 <? lenN l mod 256 + counted c mod 256)%N
    then Some (l, Some BETooManyArguments)
    else if (room e <? lenN l')%N then None
    else match complaint c with
         | Some err => Some (l', Some err)
         | None => chain_end e l' rest
         end
  end.
