(** Properties of the command line: C58, C59, C68 - C71.
    The program is [Cli]; lines, what they mean and what a user expects are in [CliSpec]. *)
From Coq Require Import String.
From Verif Require Import Bytes BytesFacts Utf8 Utf8Spec Value CommandId Request Prog Commands
  EngineSpec WireSpec RequestSpec HistorySpec EngineProps Client ClientSpec Cli CliSpec CliFacts
  CliProps CliMany LossySpec LossyFacts.
From stdpp Require Import gmap list.
From Coq Require Import NArith ZArith.
From Coq.Init Require Import Byte.

Definition rel : env := env_std false.
Definition dbg : env := env_std true.
(** Floats are read and printed as 1.0. *)
Definition txt : text := Text (fun _ => Some 4607182418800017408%N) (fun _ => lit "1.0").
Definition parsed (line : string) :=
  match parse_line dbg txt (lit line) with
  | LOk req => LOk (r_command req, r_key_type req, match args_all req with
                                                   | Some a => arguments_collect a
                                                   | None => []
                                                   end)
  | LErr err => LErr err
  | LPanic => LPanic
  end.
Definition w (x : string) : bytes := lit x.

(** C58: a line that names a command, with or without a key type, and has words that stand for
    arguments is read as the request with that command, that key type and those arguments.
    Missing: the argument list of Stats and more than 255 arguments, where it is false
    ([C58_stats_refuted], [C58_too_many_refuted]). *)
Theorem C58_reads_partial :
  forall e x name c t words args,
  spelled name c t -> Forall word words -> words_mean x c t words args ->
  Forall (fun a => a <> []) args -> (lenN args <= 255)%N -> (c = CStats -> words = []) ->
  exists req, parse_line e x (line_of name words) = LOk req /\ asks req c (Some t) args.
Proof. exact c58_reads. Qed.
Print Assumptions C58_reads_partial.

Example C58_reads_nonvacuous :
  parsed "set:int foo -12" = LOk (CSet, Some KTInteger, [w "foo"; i64_enc (-12)]) /\
  parsed "increment:by:int foo +007" = LOk (CIncrementBy, Some KTInteger, [w "foo"; i64_enc 7]) /\
  parsed "set:bool foo true" = LOk (CSet, Some KTBoolean, [w "foo"; [x01]]) /\
  parsed "append:str foo bar" = LOk (CAppend, Some KTString, [w "foo"; w "bar"]) /\
  parsed "set:map foo k v k2 v2" = LOk (CSet, Some KTMap, [w "foo"; w "k"; w "v"; w "k2"; w "v2"]) /\
  parsed "exists a b" = LOk (CExists, Some KTBytes, [w "a"; w "b"]) /\
  parsed "set:float foo 1e0" = LOk (CSet, Some KTFloat, [w "foo"; be_enc 8 4607182418800017408]) /\
  parsed "get" = LOk (CGet, Some KTBytes, []).
Proof. vm_compute. split_and!; reflexivity. Qed.

(** The hypotheses of the theorem on one of them. *)
Example C58_reads_hypotheses :
  spelled (w "set:int") CSet KTInteger /\ Forall word [w "foo"; w "-12"] /\
  words_mean txt CSet KTInteger [w "foo"; w "-12"] [w "foo"; i64_enc (-12)] /\
  Forall (fun a => a <> []) [w "foo"; i64_enc (-12)].
Proof.
  split_and!.
  - apply (spelled_typed CSet KTInteger (w "int")). vm_compute. right. left.
  - repeat constructor; refine (bool_decide_eq_true_1 _ _); by vm_compute.
  - right. exists [w "foo"], [w "-12"], [i64_enc (-12)]. split_and!; try reflexivity; [|by intros [=]].
    constructor; [|constructor]. exists (-12)%Z. split_and!; [|by vm_compute|reflexivity].
    apply parse_i64_spec. by vm_compute.
  - by repeat constructor.
Qed.

(** C58, C59: and every line that is read as a request is such a line, up to a last key of a map
    without a value, which is dropped. *)
Theorem C58_reads_only :
  forall e x line req,
  parse_line e x line = LOk req ->
  exists name c t used extra args,
    line = line_of name (used ++ extra) /\ spelled name c t /\ Forall word (used ++ extra) /\
    unused t extra /\ words_mean x c t used args /\
    (c <> CStats -> asks req c (Some t) args /\ Forall (fun a => a <> []) args /\ (lenN args <= 256)%N).
Proof. exact c58_reads_inv. Qed.
Print Assumptions C58_reads_only.

(** C58: other first words are rejected, *)
Theorem C58_rejects_name :
  forall e x first words,
  word first -> Forall word words -> first <> [] -> (forall c t, ~ spelled first c t) ->
  parse_line e x (line_of first words) = LErr (LEInvalidCommandType first).
Proof. exact c58_rejects_name. Qed.
Print Assumptions C58_rejects_name.

(** C58: a line without a first word is, *)
Theorem C58_rejects_no_name :
  forall e x words,
  Forall word words ->
  parse_line e x (line_of [] words) = LErr LENoCommandProvided.
Proof. exact c58_no_name. Qed.
Print Assumptions C58_rejects_no_name.

(** C58: words that stand for no arguments are, *)
Theorem C58_rejects_words :
  forall e x name c t words,
  spelled name c t -> Forall word words -> (lenN words <= 255)%N ->
  (forall used extra args, words = used ++ extra -> unused t extra -> ~ words_mean x c t used args) ->
  exists err, parse_line e x (line_of name words) = LErr err.
Proof. exact c58_rejects_words. Qed.
Print Assumptions C58_rejects_words.

(** C58: and so are empty arguments (two spaces in a row). *)
Theorem C58_rejects_empty :
  forall e x name c t words args,
  spelled name c t -> Forall word words -> words_mean x c t words args -> (lenN args <= 255)%N ->
  c <> CStats -> Exists (fun a => a = []) args ->
  parse_line e x (line_of name words) = LErr (LEBuildingRequest BEArgumentEmpty).
Proof. exact c58_rejects_empty. Qed.
Print Assumptions C58_rejects_empty.

(** C58: up to 255 words, reading a line does not panic. *)
Theorem C58_no_panic :
  forall e x name words,
  word name -> Forall word words -> (lenN words <= 255)%N ->
  parse_line e x (line_of name words) <> LPanic.
Proof. exact c58_no_panic. Qed.
Print Assumptions C58_no_panic.

Example C58_rejects_nonvacuous :
  parsed "sett foo bar" = LErr (LEInvalidCommandType (w "sett")) /\
  parsed "set:integers foo 1" = LErr (LEInvalidCommandType (w "set:integers")) /\
  parsed "set:int foo x1" = LErr (LEArgumentInvalid (w "x1") KTInteger) /\
  parsed "set:int foo 9223372036854775808" = LErr (LEArgumentInvalid (w "9223372036854775808") KTInteger) /\
  parsed "rename foo" = LErr LEKeyUnspecified /\
  parsed "set foo  bar" = LErr (LEBuildingRequest BEArgumentEmpty) /\
  parsed " get foo" = LErr LENoCommandProvided /\ parsed "" = LErr LENoCommandProvided /\
  (forall c t, ~ spelled (w "sett") c t).
Proof.
  split_and!; try (vm_compute; reflexivity). intros c t H.
  apply line_command_spec in H as (ot & H & _). vm_compute in H. discriminate H.
Qed.

(** C58 is false of Stats with arguments: the request does not carry them. *)
Theorem C58_stats_refuted :
  forall e x w,
  word w -> w <> [] ->
  exists req, parse_line e x (line_of (lit "stats"%string) [w]) = LOk req /\
    arg_count req = 1%N /\ arg req 0 = None.
Proof. exact c58_stats. Qed.
Print Assumptions C58_stats_refuted.

(** C58 is false of more than 256 arguments: reading the line panics. *)
Theorem C58_too_many_refuted :
  forall e x name c t words args,
  spelled name c t -> Forall word words -> words_mean x c t words args ->
  Forall (fun a => a <> []) args -> (256 < lenN args)%N -> c <> CStats ->
  parse_line e x (line_of name words) = LPanic.
Proof. exact c58_too_many. Qed.
Print Assumptions C58_too_many_refuted.

Example C58_refuted_nonvacuous :
  match parse_line dbg txt (w "stats foo") with
  | LOk req => arg_count req = 1%N /\ arg req 0 = None
  | _ => False
  end /\
  parse_line rel txt (w "exists" ++ concat (replicate 257 (w " k"))) = LPanic /\
  parse_line dbg txt (w "exists" ++ concat (replicate 256 (w " k"))) = LPanic /\
  parse_line dbg txt (w "exists" ++ concat (replicate 255 (w " k"))) <> LPanic.
Proof. vm_compute. split_and!; try reflexivity. intros [=]. Qed.

(** C59 is false: every odd list of map arguments is read, without the last key. *)
Theorem C59_refuted :
  forall e x name c keys pairs k,
  spelled name c KTMap -> c <> CExists -> c <> CIs -> c <> CStats ->
  Forall word (keys ++ pairs ++ [k]) -> Forall (fun a => a <> []) (keys ++ pairs) ->
  length keys = key_words c -> Nat.even (length pairs) = true -> (lenN (keys ++ pairs) <= 255)%N ->
  exists req, parse_line e x (line_of name (keys ++ pairs ++ [k])) = LOk req /\
    asks req c (Some KTMap) (keys ++ pairs).
Proof. exact c59_dropped. Qed.
Print Assumptions C59_refuted.

(** C59: the error for an incomplete map is never given. *)
Theorem C59_never_reported :
  forall e x line k,
  parse_line e x line <> LErr (LEMapIncomplete k).
Proof. exact c59_never. Qed.
Print Assumptions C59_never_reported.

(** C59: what is true is that half a pair never becomes part of a request.
    Missing: that the user is told. *)
Theorem C59_partial :
  forall e x line req,
  parse_line e x line = LOk req -> r_key_type req = Some KTMap ->
  r_command req <> CExists -> r_command req <> CIs -> r_command req <> CStats ->
  carries req [] \/
  exists keys pairs, carries req (keys ++ pairs) /\ length keys = key_words (r_command req) /\
    Nat.even (length pairs) = true.
Proof. exact c59_pairs. Qed.
Print Assumptions C59_partial.

Example C59_refuted_nonvacuous :
  parsed "set:map foo k v k2" = LOk (CSet, Some KTMap, [w "foo"; w "k"; w "v"]) /\
  parsed "set:map foo k" = LOk (CSet, Some KTMap, [w "foo"]) /\
  spelled (w "set:map") CSet KTMap.
Proof.
  split_and!; try (vm_compute; reflexivity).
  apply (spelled_typed CSet KTMap (w "map")). vm_compute. left.
Qed.

(** C68: a line with enough words for one of the commands that can be run does to the store what the
    client call does, and prints its answer or the message for its error.
    Missing: five commands ([C68_refuted]), and the key type of increment and decrement
    ([C68_step_type_refuted]). *)
Theorem C68_partial :
  forall e x s name c t words args call,
  spelled name c t -> Forall word words -> words_mean x c t words args ->
  Forall (fun a => a <> []) args -> (lenN args <= 255)%N -> cli_call c t args = Some call ->
  process e x s (line_of name words) = ((mem_call e s call).1, call_text e x c (mem_call e s call).2).
Proof. exact c68_does. Qed.
Print Assumptions C68_partial.

(** C68: with too few words the message says so and the store stays. *)
Theorem C68_missing_words :
  forall e x s name c t words args msg,
  spelled name c t -> Forall word words -> words_mean x c t words args ->
  Forall (fun a => a <> []) args -> missing c args = Some msg ->
  process e x s (line_of name words) = (s, LOk msg).
Proof. exact c68_missing. Qed.
Print Assumptions C68_missing_words.

(** C68, more than 255 arguments: exactly what a line with 256 or more does. It panics, except that 256
    are taken in a release build: Exists and Is then say that there are too many. *)
Theorem C68_many_words_partial :
  forall e x s name c t words args,
  spelled name c t -> Forall word words -> words_mean x c t words args ->
  Forall (fun a => a <> []) args -> c <> CStats ->
  (lenN args = 256%N -> debug e = true -> process e x s (line_of name words) = (s, LPanic)) /\
  (lenN args = 256%N -> debug e = false -> c = CExists \/ c = CIs ->
   process e x s (line_of name words)
   = (s, LOk (lit "You may only provide at most 255 arguments."%string))) /\
  (lenN args = 256%N -> debug e = false -> forall call, cli_call c t args = Some call ->
   process e x s (line_of name words) = ((mem_call e s call).1, call_text e x c (mem_call e s call).2)) /\
  ((256 < lenN args)%N -> process e x s (line_of name words) = (s, LPanic)).
Proof. exact c68_many. Qed.
Print Assumptions C68_many_words_partial.

Example C68_many_nonvacuous :
  let l := replicate 256 (w "n") in
  spelled (w "exists") CExists KTBytes /\ words_mean txt CExists KTBytes l l /\
  Forall (fun a => a <> []) l /\ lenN l = 256%N /\ debug (env_std false) = false.
Proof.
  split_and!; [exact (spelled_plain CExists)|done| |done|done].
  by apply Forall_replicate.
Qed.

(** C68 is false of Append, DecrementBy, IncrementBy, Length and Set: running such a line panics. *)
Theorem C68_refuted :
  forall e x s name c t words req,
  spelled name c t -> can_run c = false -> Forall word words ->
  parse_line e x (line_of name words) = LOk req ->
  process e x s (line_of name words) = (s, LPanic).
Proof. exact c68_panics. Qed.
Print Assumptions C68_refuted.

(** C68 is false of a key type given with increment or decrement: it makes no difference. *)
Theorem C68_step_type_refuted :
  forall e x s name name' t t' k c,
  c = CIncrement \/ c = CDecrement ->
  spelled name c t -> spelled name' c t' -> word k -> k <> [] ->
  process e x s (line_of name [k]) = process e x s (line_of name' [k]).
Proof. exact c68_step_type. Qed.
Print Assumptions C68_step_type_refuted.

Definition store0 : store :=
  store_of [(w "n", VInteger 41); (w "m", VMap {[w "k" := w "v"]}); (w "s", VString (w "hello"))].
Definition says (s : store) (line : string) := (process dbg txt s (lit line)).2.
Example C68_nonvacuous :
  says store0 "increment n" = LOk (w "42") /\
  says store0 "get s" = LOk (w "hello") /\
  says store0 "type m" = LOk (w "map") /\
  says store0 "keys m" = LOk (w "k") /\
  says store0 "echo a b" = LOk (w "a b") /\
  says store0 "exists n m" = LOk (w "true") /\
  says store0 "is:int n m" = LOk (w "false") /\
  says store0 "rename n n2" = LOk (w "n2") /\
  says store0 "get nothing" = LOk (w "The specified key does not exist.") /\
  says store0 "get" = LOk (w "Specifying a key is required.") /\
  says store0 "rename n" = LErr LEKeyUnspecified /\
  says store0 "rename" = LOk (w "The destination key name is required.") /\
  says store0 "stats" = LOk (w "Commands successful: 0" ++ [x0a] ++ w "Commands errored: 0" ++ [x0a] ++
                             w "Sessions started: 0" ++ [x0a] ++ w "Sessions ended: 0").
Proof. vm_compute. split_and!; reflexivity. Qed.
Example C68_refuted_nonvacuous :
  says store0 "set foo bar" = LPanic /\ says store0 "append s x" = LPanic /\
  says store0 "length s" = LPanic /\ says store0 "increment:by n 1" = LPanic /\
  says store0 "decrement:by n 1" = LPanic /\
  st_keys (process dbg txt store0 (lit "increment:float new")).1 !! w "new" = Some (VInteger 1).
Proof. vm_compute. split_and!; reflexivity. Qed.

(** C69 is false: no collection whose last part has a text is printed in full. *)
Theorem C69_refuted :
  forall e x v ts t,
  texts e v = Some (ts ++ [t]) -> t <> [] ->
  print_value e x v <> Ok (join_with [x0a] (ts ++ [t])).
Proof. exact c69_never. Qed.
Print Assumptions C69_refuted.

(** C69: its last character is missing if it is ASCII, and otherwise printing panics. *)
Theorem C69_last_character :
  forall e x v ts t b,
  texts e v = Some (ts ++ [t ++ [b]]) ->
  print_value e x v = if (b2n b <? 128)%N then Ok (text_lines ts ++ t) else Panic.
Proof. exact c69_last. Qed.
Print Assumptions C69_last_character.

(** C69: if the last part is empty, its line is missing. *)
Theorem C69_last_empty :
  forall e x v ts t,
  texts e v = Some (ts ++ [t; []]) -> print_value e x v = Ok (text_lines ts ++ t).
Proof. exact c69_last_empty. Qed.
Print Assumptions C69_last_empty.

(** C69: if there is nothing to print, printing panics in a debug build. *)
Theorem C69_nothing :
  forall e x v ts,
  texts e v = Some ts -> (ts = [] \/ ts = [[]]) ->
  print_value e x v = if debug e then Panic else Ok (text_lines ts).
Proof. exact c69_nothing. Qed.
Print Assumptions C69_nothing.

Example C69_nonvacuous :
  print_value rel txt (VList [w "one"; w "two"]) = Ok (w "one" ++ [x0a] ++ w "tw") /\
  print_value rel txt (VList [w "x"]) = Ok [] /\
  print_value rel txt (VMap {[w "k" := w "v"]}) = Ok (w "k=") /\
  print_value rel txt (VList [w "one"; [xc3; xa9]]) = Panic /\
  print_value rel txt (VList [w "one"; []]) = Ok (w "one") /\
  print_value dbg txt (VList []) = Panic /\ print_value rel txt (VList []) = Ok [].
Proof. vm_compute. split_and!; reflexivity. Qed.

(** C70: an integer is printed as a decimal number, *)
Theorem C70_integer_text :
  forall z,
  decimal (show_i64 z) z.
Proof. exact show_i64_decimal. Qed.
Print Assumptions C70_integer_text.

(** C70: exactly the decimal numbers in range are read as integers, *)
Theorem C70_integer_read :
  forall w z,
  parse_i64 w = Some z <-> decimal w z /\ i64_range z.
Proof. exact parse_i64_spec. Qed.
Print Assumptions C70_integer_read.

(** C70: and what was printed reads as the same integer. *)
Theorem C70_integer_round_trip :
  forall z,
  i64_range z -> parse_i64 (show_i64 z) = Some z.
Proof. exact parse_show. Qed.
Print Assumptions C70_integer_round_trip.

(** C70: printed bytes are always valid UTF-8, and text is printed as it is. *)
Theorem C70_text :
  forall bs,
  utf8_valid (lossy bs) = true /\ (utf8_valid bs = true -> lossy bs = bs).
Proof. exact lossy_spec. Qed.
Print Assumptions C70_text.

(** C70: bytes that are not text are printed as the Unicode standard recommends, and nothing else
    would do. *)
Theorem C70_repaired :
  forall bs t,
  repaired bs t <-> t = lossy bs.
Proof. exact c70_repaired. Qed.
Print Assumptions C70_repaired.

Example C70_nonvacuous :
  show_i64 (-9223372036854775808) = w "-9223372036854775808" /\ show_i64 0 = w "0" /\
  parse_i64 (w "-9223372036854775808") = Some (-9223372036854775808)%Z /\
  parse_i64 (w "-9223372036854775809") = None /\ parse_i64 (w "-") = None /\
  lossy [x61; xc3; xa9; xc3; x62; xe2; x82; xff] =
    [x61; xc3; xa9; xef; xbf; xbd; x62; xef; xbf; xbd; xef; xbf; xbd].
Proof. vm_compute. split_and!; reflexivity. Qed.

(** C71: as long as the lines are answered, a session answers them in order and goes on with what
    they left.
    Missing: lines that cannot be read ([C71_refuted]) and commands that panic (C68). *)
Theorem C71_partial :
  forall e x lines outs,
  forall s s' rest, answers e x s lines outs s' ->
  session e x s (lines ++ rest) =
  (transcript outs ++ (session e x s' rest).1, (session e x s' rest).2).
Proof. exact c71_continues. Qed.
Print Assumptions C71_partial.

(** C71 is false: a line that cannot be read ends the program; the lines after it are not run. *)
Theorem C71_refuted :
  forall e x s line rest err,
  utf8_valid line = true -> parse_line e x (trim_end line) = LErr err ->
  session e x s (line :: rest) = (lit "> "%string, EndError err).
Proof. exact c71_ends. Qed.
Print Assumptions C71_refuted.

(** C71: the end of the input is such a line, so the program always ends with an error. *)
Theorem C71_end_of_input :
  forall e x s,
  session e x s [] = (lit "> "%string, EndError LENoCommandProvided).
Proof. exact c71_end_of_input. Qed.
Print Assumptions C71_end_of_input.

(** C71, every session exactly: it answers some lines in order, and then ends at the end of the input, at a line
    that is not text, at one that cannot be read, or at one whose command panics. *)
Theorem C71_every_session_partial :
  forall e x lines s,
  exists read rest outs s' how,
    lines = read ++ rest /\ answers e x s read outs s' /\
    session e x s lines = (transcript outs ++ lit "> "%string, how) /\
    match rest with
    | [] => how = EndError LENoCommandProvided
    | line :: _ =>
      if utf8_valid line then
        match (process e x s' (trim_end line)).2 with
        | LOk _ => False
        | LErr err => how = EndError err
        | LPanic => how = EndPanic
        end
      else how = EndInvalidUtf8
    end.
Proof. exact c71_every_session. Qed.
Print Assumptions C71_every_session_partial.

(** C71: the lines are the input, *)
Theorem C71_lines :
  forall input,
  concat (lines_of input) = input.
Proof. exact lines_of_concat. Qed.
Print Assumptions C71_lines.

(** C71: each up to its newline, *)
Theorem C71_lines_end :
  forall input,
  Forall (fun l => l <> [] /\ (forall p b, l = p ++ [b] -> x0a ∉ p)) (lines_of input).
Proof. exact lines_of_lines. Qed.
Print Assumptions C71_lines_end.

(** C71: and only whitespace at their end is removed. *)
Theorem C71_trimmed :
  forall s,
  (exists cs, Forall (fun c => c ∈ spaces) cs /\ s = trim_end s ++ concat (map utf8_encode cs)) /\
  forall c p, c ∈ spaces -> trim_end s <> p ++ utf8_encode c.
Proof. exact trim_end_spec. Qed.
Print Assumptions C71_trimmed.

Example C71_nonvacuous :
  run_cli dbg txt (w "increment n" ++ [x0a] ++ w "increment n " ++ [x0a] ++ w "get n" ++ [x0a]) =
    (w "> 1" ++ [x0a] ++ w "> 2" ++ [x0a] ++ w "> 2" ++ [x0a] ++ w "> ", EndError LENoCommandProvided) /\
  run_cli dbg txt (w "increment n" ++ [x0a] ++ w "incr n" ++ [x0a] ++ w "get n") =
    (w "> 1" ++ [x0a] ++ w "> ", EndError (LEInvalidCommandType (w "incr"))) /\
  run_cli dbg txt (w "set n 1" ++ [x0a] ++ w "get n") = (w "> ", EndPanic).
Proof. vm_compute. split_and!; reflexivity. Qed.
