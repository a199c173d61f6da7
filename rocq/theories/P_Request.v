(** Properties of built requests: C01 - C05 and C60.
    The vocabulary is in [RequestSpec] and [WireSpec]. *)
From Verif Require Import Bytes Utf8 Value CommandId Request WireSpec RequestSpec
  BytesFacts RequestFacts RequestProps.
From Coq Require Import String.
From stdpp Require Import gmap list.
From Coq Require Import NArith ZArith.

(** C01: pushing up to 255 non-empty arguments succeeds, and the accessors give
    back exactly what was pushed. *)
Theorem C01_built_request_gives_back_arguments :
  forall e c kt l,
  is_simple c = false -> (lenN l <= 255)%N -> Forall (fun a => a <> []) l ->
  exists b, builder_chain e (builder_new_kt c kt) (map CallBytes l) = Ok (b, None) /\
    let r := into_request b in
    r_command r = c /\ r_key_type r = kt /\ carries r l /\
    (l <> [] -> exists a, args_all r = Some a /\ yields a l) /\
    (l <> [] -> exists a, args_from r 1 = Some a /\ yields a (drop 1 l)) /\
    (key_notation_of c <> KNNone -> key r = head l) /\
    (key_notation_of c = KNNone -> key r = None).
Proof. exact c01. Qed.
Print Assumptions C01_built_request_gives_back_arguments.

Example C01_nonvacuous :
  is_simple CSet = false /\ (lenN [lit "foo"; lit "bar"] <= 255)%N
  /\ Forall (fun a => a <> []) [lit "foo"; lit "bar"].
Proof. repeat split; [done|]. repeat constructor; done. Qed.

(** C01, iterators without an argument: the code answers [None] rather than an
    empty iterator. *)
Theorem C01_no_arguments_no_iterator :
  forall r, carries r [] -> forall lo hi, args r lo hi = None.
Proof. exact args_nil. Qed.
Print Assumptions C01_no_arguments_no_iterator.

(** C02: the bytes of a built request are the documented format ... *)
Theorem C02_wire_format :
  forall e c kt l b,
  is_simple c = false -> (lenN l <= 255)%N ->
  Forall (fun a => a <> [] /\ lenN a < u32_mod)%N l ->
  builder_chain e (builder_new_kt c kt) (map CallBytes l) = Ok (b, None) ->
  r_buf (into_request b) = wire_request c kt l.
Proof. exact c02_format. Qed.
Print Assumptions C02_wire_format.

(** ... and the format is unambiguous, even with more bytes following. *)
Theorem C02_wire_unambiguous :
  forall c1 kt1 l1 c2 kt2 l2 s1 s2,
  (lenN l1 <= 255)%N -> (lenN l2 <= 255)%N ->
  Forall (fun a => lenN a < u32_mod)%N l1 -> Forall (fun a => lenN a < u32_mod)%N l2 ->
  wire_request c1 kt1 l1 ++ s1 = wire_request c2 kt2 l2 ++ s2 ->
  c1 = c2 /\ kt1 = kt2 /\ l1 = l2 /\ s1 = s2.
Proof. exact wire_request_inj. Qed.
Print Assumptions C02_wire_unambiguous.

Example C02_nonvacuous :
  wire_request CSet (Some KTString) [lit "ab"; lit "c"] =
  map n2b [138; 4; 2; 0; 0; 0; 2; 97; 98; 0; 0; 0; 1; 99]%N.
Proof. vm_compute. reflexivity. Qed.

(** C03: a value the builder accepts after a key reads back, for every iteration
    order. *)
Theorem C03_values_survive_the_request :
  forall e c kt k v b1 b,
  is_simple c = false -> env_ok e -> value_wf v ->
  builder_bytes e (builder_new_kt c kt) k = Ok (b1, None) ->
  builder_value e b1 v = Ok (b, None) ->
  reads_back (into_request b) v.
Proof. exact c03. Qed.
Print Assumptions C03_values_survive_the_request.

(** Acceptance is not vacuous: every non-empty value of at most 254 arguments is
    accepted after a key. *)
Theorem C03_accepted :
  forall e c kt k v,
  is_simple c = false -> env_ok e -> k <> [] ->
  value_empty v = false -> (value_arity v <= 254)%N ->
  exists b1 b, builder_bytes e (builder_new_kt c kt) k = Ok (b1, None) /\
               builder_value e b1 v = Ok (b, None).
Proof. exact c03_accepted. Qed.
Print Assumptions C03_accepted.

Example C03_nonvacuous :
  value_empty (VMap (list_to_map [(lit "k", lit "v"); (lit "l", [])])) = false
  /\ (value_arity (VMap (list_to_map [(lit "k", lit "v"); (lit "l", [])])) = 4)%N.
Proof. vm_compute. done. Qed.

(** C04 fails.  In a debug build the 256th argument panics; in a release build it
    is accepted and the sent count is 0; a refused list leaves its first items in
    the builder; a map's overfill check counts its entries, not its arguments; a list of
    256 items passes the check because its length is truncated to 8 bits. *)
Theorem C04_refuted :
  (exists l, builder_chain (env_std true) (builder_new CEcho) (map CallBytes l)
             = Panic /\ lenN l = 256%N) /\
  (exists l b, builder_chain (env_std false) (builder_new CEcho) (map CallBytes l)
               = Ok (b, None) /\ lenN l = 256%N
               /\ take 2 (r_buf (into_request b)) = [n2b (command_id_to_u8 CEcho); x00]) /\
  (exists l, builder_chain (env_std false) (builder_new CEcho) (map CallBytes l)
             = Panic /\ lenN l = 257%N) /\
  (exists v b, builder_value (env_std false) (builder_new CEcho) v
               = Ok (b, Some BEValueEmpty) /\ arg_count (into_request b) = 1%N) /\
  (exists m, builder_value (env_std false) (builder_new CEcho) (VMap m) = Panic
             /\ size m = 129) /\
  (exists l b, builder_value (env_std false) (builder_new CEcho) (VList l)
               = Ok (b, None) /\ lenN l = 256%N
               /\ take 2 (r_buf (into_request b)) = [n2b (command_id_to_u8 CEcho); x00]).
Proof. exact c04_false. Qed.
Print Assumptions C04_refuted.

(** C04, proved part: any chain of non-empty calls with at most 255 arguments in
    total is accepted in full. *)
Theorem C04_partial :
  forall e c kt calls,
  is_simple c = false -> env_ok e ->
  Forall (fun x => call_empty x = false) calls ->
  (fold_right (fun c n => call_arity c + n) 0 calls <= 255)%N ->
  exists b, builder_chain e (builder_new_kt c kt) calls = Ok (b, None) /\
            carries (into_request b) (concat (map (call_args e) calls)).
Proof. exact c04_fits. Qed.
Print Assumptions C04_partial.

(** C04, the exact outcome of pushing byte arguments, all lengths covered. *)
Theorem C04_exact_bytes_partial :
  forall e c kt l,
  is_simple c = false -> Forall (fun a => a <> []) l ->
  ((lenN l <= 255)%N ->
     exists b, builder_chain e (builder_new_kt c kt) (map CallBytes l) = Ok (b, None)
               /\ carries (into_request b) l) /\
  (lenN l = 256%N -> debug e = true ->
     builder_chain e (builder_new_kt c kt) (map CallBytes l) = Panic) /\
  (lenN l = 256%N -> debug e = false ->
     exists b, builder_chain e (builder_new_kt c kt) (map CallBytes l) = Ok (b, None)
       /\ carries (into_request b) l
       /\ exists h t, r_buf (into_request b) = h ++ [x00] ++ t
                      /\ h = wire_head c kt) /\
  ((256 < lenN l)%N ->
     builder_chain e (builder_new_kt c kt) (map CallBytes l) = Panic).
Proof. exact c04_exact_bytes. Qed.
Print Assumptions C04_exact_bytes_partial.

(** C04, refusals: an empty value that would fit is refused as empty; a list or
    set of fewer than 256 items that does not fit is refused as too many
    arguments (with more, the overfill check sees the count modulo 256). *)
Theorem C04_refusals_partial :
  forall e c kt l v b,
  is_simple c = false -> env_ok e ->
  Forall (fun a => a <> []) l -> (lenN l <= 255)%N ->
  builder_chain e (builder_new_kt c kt) (map CallBytes l) = Ok (b, None) ->
  ((lenN l + value_arity v <= 255)%N -> value_empty v = true ->
     exists b', builder_value e b v = Ok (b', Some BEValueEmpty)) /\
  (forall items, v = VList items -> (lenN items < 256)%N ->
     (255 < lenN l + lenN items)%N ->
     exists b', builder_value e b v = Ok (b', Some BETooManyArguments)
                /\ carries (into_request b') l) /\
  (forall s, v = VSet s -> (size s < 256)%nat ->
     (255 < lenN l + N.of_nat (size s))%N ->
     exists b', builder_value e b v = Ok (b', Some BETooManyArguments)
                /\ carries (into_request b') l).
Proof. exact c04_refusals. Qed.
Print Assumptions C04_refusals_partial.

(** C05 fails: whenever something was pushed both before and after the
    conversion, the sent bytes differ from those of one builder (the count byte
    restarts from 0). *)
Theorem C05_refuted :
  forall e c kt l l',
  is_simple c = false ->
  Forall (fun a => a <> []) l -> Forall (fun a => a <> []) l' ->
  l <> [] -> l' <> [] -> (lenN l + lenN l' <= 255)%N ->
  exists b b' b'',
    builder_chain e (builder_new_kt c kt) (map CallBytes l) = Ok (b, None) /\
    builder_chain e (builder_of_request (into_request b)) (map CallBytes l')
      = Ok (b', None) /\
    builder_chain e (builder_new_kt c kt) (map CallBytes (l ++ l')) = Ok (b'', None) /\
    r_buf (into_request b') <> r_buf (into_request b'').
Proof. exact c05_false. Qed.
Print Assumptions C05_refuted.

(** C05, proved part: the command, key type and all the arguments are still there
    when the request is read through its accessors.  Missing: equality of the
    bytes that would be sent, see below. *)
Theorem C05_partial :
  forall e c kt l l',
  is_simple c = false ->
  Forall (fun a => a <> []) l -> Forall (fun a => a <> []) l' ->
  (lenN l + lenN l' <= 255)%N ->
  exists b b', builder_chain e (builder_new_kt c kt) (map CallBytes l) = Ok (b, None) /\
    builder_chain e (builder_of_request (into_request b)) (map CallBytes l')
    = Ok (b', None) /\
    r_command (into_request b') = c /\ r_key_type (into_request b') = kt /\
    carries (into_request b') (l ++ l').
Proof. exact c05_readable. Qed.
Print Assumptions C05_partial.

(** C05, exactly the bytes that would be sent: all the arguments, with the number of those pushed after the
    conversion. *)
Theorem C05_sent_partial :
  forall e c kt l l',
  is_simple c = false ->
  Forall (fun a => a <> []) l -> Forall (fun a => a <> []) l' -> l' <> [] ->
  (lenN l + lenN l' <= 255)%N ->
  exists b b', builder_chain e (builder_new_kt c kt) (map CallBytes l) = Ok (b, None) /\
    builder_chain e (builder_of_request (into_request b)) (map CallBytes l')
    = Ok (b', None) /\
    r_buf (into_request b') =
      wire_head c kt ++ [n2b (lenN l')] ++ concat (map wire_arg (l ++ l')).
Proof. exact c05_sent. Qed.
Print Assumptions C05_sent_partial.

Example C05_nonvacuous :
  is_simple CAppend = false /\ Forall (fun a => a <> []) [lit "key"]
  /\ Forall (fun a => a <> []) [lit "a"; lit "b"].
Proof. repeat split; repeat constructor; done. Qed.

(** C60 fails: the iterator over all but the first argument reports one more
    item than it yields, and so does a full iterator after one step. *)
Theorem C60_refuted :
  forall r l, carries r l -> l <> [] ->
  exists a a' x,
    (args_from r 1 = Some a /\ yields a (drop 1 l)
     /\ arguments_len a = (1 + lenN (drop 1 l))%N) /\
    (exists a0, args_all r = Some a0 /\ arguments_next a0 = (Some x, a')
     /\ yields a' (drop 1 l) /\ arguments_len a' = (1 + lenN (drop 1 l))%N).
Proof. exact c60_false. Qed.
Print Assumptions C60_refuted.

(** C60, proved part: the reported length is the number of items left plus the
    number of items before the iterator's position, so it is right exactly for
    an iterator at position 0. *)
Theorem C60_partial :
  forall r l a rest,
  carries r l -> a_req a = r -> a_to a = lenN l -> (a_idx a <= lenN l)%N ->
  yields a rest -> arguments_len a = (a_idx a + lenN rest)%N.
Proof. exact c60_general. Qed.
Print Assumptions C60_partial.

Theorem C60_fresh_partial :
  forall r l, carries r l -> l <> [] ->
  exists a, args_all r = Some a /\ yields a l /\ arguments_len a = lenN l.
Proof. exact c60_fresh. Qed.
Print Assumptions C60_fresh_partial.

(** A request with three arguments: [carries] is met by what the builder makes. *)
Example C60_nonvacuous :
  exists b, builder_chain (env_std false) (builder_new CEcho)
    (map CallBytes [lit "a"; lit "bc"; lit "d"]) = Ok (b, None)
    /\ carries (into_request b) [lit "a"; lit "bc"; lit "d"].
Proof.
  destruct (c04_fits (env_std false) CEcho None (map CallBytes [lit "a"; lit "bc"; lit "d"]))
    as (b & Hb & Hc); [done|apply env_std_ok|repeat constructor|done|].
  exists b. split; [exact Hb|exact Hc].
Qed.
