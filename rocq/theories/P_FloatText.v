(** Floats in decimal: C113.
    Reading and printing are in [FloatText]; what decimal texts mean and which float is closest in
    [FloatTextSpec] and [FloatSpec].  One is 2^1074 units. *)
From Coq Require Import String.
From Verif Require Import Bytes BytesFacts Utf8 Float64 Value CommandId Request Prog Commands EngineSpec WireSpec RequestSpec HistorySpec
  EngineProps Client ClientSpec Cli CliSpec CliFacts CliProps FloatSpec FloatUnique FloatText FloatTextSpec FloatTextFacts
  FloatTextRead FloatTextShow FloatTextCli.
From stdpp Require Import gmap list.
From Coq Require Import NArith ZArith Lia.
From Coq.Init Require Import Byte.
Local Open Scope Z_scope.

(** (** C113: exactly the words that stand for a float are read, as that float: signs, digits with or without
    a point, an exponent, the names of the infinities and of what is not a number.  A decimal stands for
    the closest float, the even one of two that are equally close; infinity if it is too large. *) *)
Theorem C113_read :
  forall w f,
  read_f64 w = Some f <-> float_word w f.
Proof. exact c113_read. Qed.
Print Assumptions C113_read.

(** (** C113: there is only one closest float. *) *)
Theorem C113_one :
  forall neg m k a b,
  closest neg m k a -> closest neg m k b -> a = b.
Proof. exact closest_unique. Qed.
Print Assumptions C113_one.

Definition reads (w : string) : option N := read_f64 (lit w).
Example C113_read_nonvacuous :
  map reads ["1"; "-0.5"; ".5"; "5."; "+12.5e-1"; "1E3"; "0.1"; "9007199254740993"; "1e400"; "-1e-400"; "iNF"; "-infinity"; "NaN"]%string =
    [Some f64_one; Some 13826050856027422720; Some 4602678819172646912; Some 4617315517961601024;
     Some 4608308318706860032; Some 4652007308841189376; Some 4591870180066957722; Some 4845873199050653696;
     Some (infinity false); Some (zero true); Some (infinity false); Some (infinity true); Some (infinity false + 2 ^ 51)]%N /\
  map reads [""; "."; "-"; "e5"; "1e"; "1.2.3"; "0x10"; "1_000"; "in"; "+-1"; "1 "]%string = replicate 11 None /\
  numeral (lit "12.5e-1") 125 (-2) /\ closest false 125 (-2) 4608308318706860032 /\
  units 4608308318706860032 * 4 = 5 * 2 ^ 1074.
Proof.
  split_and!.
  - vm_compute. reflexivity.
  - vm_compute. reflexivity.
  - apply read_decimal_spec. vm_compute. reflexivity.
  - refine (eq_rect _ (closest false 125 (-2)) (closest_round false 125 (-2) ltac:(lia)) _ _). vm_compute. reflexivity.
  - vm_compute. reflexivity.
Qed.

(** (** C113: a number is printed as a sign, if it is negative, and digits with or without a point, which
    stand for it. *) *)
Theorem C113_print :
  forall f,
  (f < 2 ^ 64)%N -> number f ->
  exists s m k, show_float f = minus_sign (negative f) ++ s /\ digits_and_points s /\ numeral s m k /\
    closest (negative f) m k f.
Proof. exact c113_print. Qed.
Print Assumptions C113_print.

(** (** C113: with as few digits as possible: no decimal with fewer digits stands for it, and none with
    these decimals is closer to it. *) *)
Theorem C113_shortest :
  forall f,
  (f < 2 ^ 64)%N -> number f -> units f <> 0 ->
  exists s d k, show_float f = minus_sign (negative f) ++ s /\ digits_and_points s /\
    numeral s (d * 10 ^ Z.max 0 k) (Z.min 0 k) /\ 0 < d /\ d mod 10 <> 0 /\ closest (negative f) d k f /\
    forall d' k', 0 <= d' -> closest (negative f) d' k' f ->
      (forall x, 0 <= x -> d' < 10 ^ x -> d < 10 ^ x) /\
      (k' = k -> distance d k (Z.abs (units f)) <= distance d' k' (Z.abs (units f))).
Proof. exact c113_shortest. Qed.
Print Assumptions C113_shortest.

(** (** C113: what was printed reads as what was printed, and as nothing else. *) *)
Theorem C113_round_trip :
  forall f,
  (f < 2 ^ 64)%N ->
  (nan f /\ show_float f = lit "NaN"%string /\ exists g, float_word (show_float f) g /\ nan g) \/
  (~ nan f /\ float_word (show_float f) f /\ forall g, float_word (show_float f) g -> g = f).
Proof. exact c113_round_trip. Qed.
Print Assumptions C113_round_trip.

Definition shows (f : N) : bytes := show_float f.
Example C113_print_nonvacuous :
  map shows [f64_one; 4591870180066957722; 4599075939470750516; 13832806255468478464; zero true; 4681608360884174848;
             infinity true; infinity false + 1; 4950912855330343670]%N =
  map lit ["1"; "0.1"; "0.30000000000000004"; "-1.5"; "-0"; "100000"; "-inf"; "NaN"; "100000000000000000000000"]%string.
Proof. vm_compute. reflexivity. Qed.
Example C113_shortest_nonvacuous :
  (4599075939470750516 < 2 ^ 64)%N /\ number 4599075939470750516 /\ units 4599075939470750516 <> 0 /\
  read_f64 (lit "0.30000000000000004") = Some 4599075939470750516%N /\
  read_f64 (lit "0.3000000000000000") <> Some 4599075939470750516%N /\
  read_f64 (lit "0.3000000000000001") <> Some 4599075939470750516%N.
Proof. split_and!; try (vm_compute; reflexivity); by vm_compute. Qed.

(** (** C113: on the command line: float arguments are sent as the closest floats, *) *)
Theorem C113_typed :
  forall e name c keys ws fs,
  spelled name c KTFloat -> c <> CExists -> c <> CIs -> c <> CStats -> length keys = key_words c ->
  Forall word (keys ++ ws) -> Forall (fun k => k <> []) keys -> Forall2 float_word ws fs ->
  (lenN keys + lenN ws <= 255)%N ->
  exists req, parse_line e rust_text (line_of name (keys ++ ws)) = LOk req /\
    asks req c (Some KTFloat) (keys ++ map (be_enc 8) fs).
Proof. exact c113_typed. Qed.
Print Assumptions C113_typed.

(** (** C113: the first word that stands for no float is named and nothing is sent, *) *)
Theorem C113_refused :
  forall e name c keys ws w more,
  spelled name c KTFloat -> c <> CExists -> c <> CIs -> length keys = key_words c ->
  Forall word (keys ++ ws ++ w :: more) ->
  Forall (fun w => exists f, float_word w f) ws -> (forall f, ~ float_word w f) ->
  parse_line e rust_text (line_of name (keys ++ ws ++ w :: more)) = LErr (LEArgumentInvalid w KTFloat).
Proof. exact c113_refused. Qed.
Print Assumptions C113_refused.

(** (** C113: and a line whose answer is a float prints a text that stands for it and can be typed again. *) *)
Theorem C113_printed :
  forall e s name c t words args call f,
  spelled name c t -> Forall word words -> words_mean rust_text c t words args ->
  Forall (fun a => a <> []) args -> (lenN args <= 255)%N -> cli_call c t args = Some call ->
  (mem_call e s call).2 = ROk (RpValue (VFloat f)) -> (f < 2 ^ 64)%N -> ~ nan f ->
  exists out, process e rust_text s (line_of name words) = ((mem_call e s call).1, LOk out) /\
    float_word out f /\ forall g, float_word out g -> g = f.
Proof. exact c113_printed. Qed.
Print Assumptions C113_printed.

Definition rel : env := env_std false.
Example C113_line_nonvacuous :
  match parse_line rel rust_text (lit "set:float f 0.1 -1e3") with
  | LOk req => match args_all req with
               | Some a => arguments_collect a = [lit "f"; be_enc 8 4591870180066957722; be_enc 8 13875379345695965184]
               | None => False
               end
  | _ => False
  end /\
  read_f64 (lit "-1e3") = Some 13875379345695965184%N /\
  parse_line rel rust_text (lit "set:float f 0.1 1,5 2") = LErr (LEArgumentInvalid (lit "1,5") KTFloat) /\
  spelled (lit "set:float") CSet KTFloat /\ float_word (lit "0.1") 4591870180066957722 /\
  (forall f, ~ float_word (lit "1,5") f) /\
  (let s := store_of [(lit "f", VFloat 4591870180066957722)] in
   (mem_call rel s (KGet (lit "f"))).2 = ROk (RpValue (VFloat 4591870180066957722)) /\
   (process rel rust_text s (lit "get f")).2 = LOk (lit "0.1")).
Proof.
  split_and!.
  - vm_compute. reflexivity.
  - vm_compute. reflexivity.
  - vm_compute. reflexivity.
  - apply (spelled_typed CSet KTFloat (lit "float")). vm_compute. left.
  - apply c113_read. vm_compute. reflexivity.
  - intros f H%c113_read. vm_compute in H. discriminate H.
  - split_and!; vm_compute; reflexivity.
Qed.
