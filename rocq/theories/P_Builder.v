(** The exact outcome of every chain of builder calls (C04).
    The vocabulary is in [BuilderSpec], [RequestSpec] and [WireSpec]. *)
From Coq Require Import String.
From Verif Require Import Bytes BytesFacts Utf8 Value CommandId Request WireSpec RequestSpec
  BuilderSpec BuilderFacts.
From stdpp Require Import gmap list.
From Coq Require Import NArith.
From Coq.Init Require Import Byte.

(** C04, what is true instead, of every chain: when it panics, what it is refused with, the arguments that
    are then in the request (also those a refused call left there), and the bytes.  Missing: the claim itself,
    which is false (see [C04_refuted]). *)
Theorem C04_exact_partial :
  forall e c kt calls,
  is_simple c = false -> env_ok e ->
  match chain_end e [] calls with
  | None => builder_chain e (builder_new_kt c kt) calls = Panic
  | Some (l, err) =>
    exists b, builder_chain e (builder_new_kt c kt) calls = Ok (b, err) /\
      carries (into_request b) l /\
      r_buf (into_request b)
      = wire_head c kt ++ [n2b (lenN l)] ++ concat (map wire_arg l)
  end.
Proof. exact c04_exact. Qed.
Print Assumptions C04_exact_partial.

Definition pairs129 : gmap bytes bytes :=
  list_to_map (map (fun n => (be_enc 1 (N.of_nat n), lit "v")) (seq 0 129)).

(** A refused list leaves the items in front of its empty one; 200 + 56 items are refused and leave
    nothing; 256 items are not refused; a map of 129 entries panics; in a release build one more
    argument than the wire format can say is accepted. *)
Example C04_exact_nonvacuous :
  env_ok (env_std false) /\
  chain_end (env_std true) [] [CallBytes (lit "k"); CallValue (VList [lit "a"; lit "b"; []; lit "c"])]
    = Some ([lit "k"; lit "a"; lit "b"], Some BEValueEmpty) /\
  chain_end (env_std true) [] [CallValue (VList (replicate 200 (lit "a")));
                               CallValue (VList (replicate 56 (lit "b")))]
    = Some (replicate 200 (lit "a"), Some BETooManyArguments) /\
  chain_end (env_std false) [] [CallValue (VList (replicate 256 (lit "a")))]
    = Some (replicate 256 (lit "a"), None) /\
  chain_end (env_std false) [] [CallValue (VMap pairs129)] = None /\
  chain_end (env_std true) [] [CallValue (VMap pairs129)] = None /\
  chain_end (env_std true) [] (replicate 256 (CallBytes (lit "a"))) = None /\
  chain_end (env_std false) [] (replicate 256 (CallBytes (lit "a")))
    = Some (replicate 256 (lit "a"), None) /\
  chain_end (env_std false) [] (replicate 257 (CallBytes (lit "a"))) = None.
Proof. split; [exact (env_std_ok false)|]. vm_compute. done. Qed.
