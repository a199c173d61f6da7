(** What the command line prints is text: C126.  A text is the encoding of a sequence of characters ([Utf8Spec]). *)
From Coq Require Import String.
From Verif Require Import Bytes BytesFacts Utf8 Utf8Spec Utf8Facts Value CommandId Request Metrics Prog Commands EngineSpec
  HistorySpec Client Cli CliSpec FloatText CliTextFacts.
From stdpp Require Import gmap list.
From Coq Require Import NArith ZArith.
From Coq.Init Require Import Byte.

(** C126: whatever bytes a value has in it, what is printed for it is text, if the value is not itself a string
    that is none. *)
Theorem C126_value :
  forall e v out,
  (forall s, v = VString s -> exists cs, spells_chars cs s) ->
  print_value e rust_text v = Ok out -> exists cs, spells_chars cs out.
Proof. exact c126_value. Qed.
Print Assumptions C126_value.

(** C126: bytes are printed as they are if and only if they are text. *)
Theorem C126_same :
  forall e b,
  print_value e rust_text (VBytes b) = Ok b <-> exists cs, spells_chars cs b.
Proof. exact c126_same. Qed.
Print Assumptions C126_same.

(** C126: whatever data there are, and whatever line is run, the answer is text. *)
Theorem C126_line :
  forall e s line s' out,
  process e rust_text s line = (s', LOk out) -> exists cs, spells_chars cs out.
Proof. exact c126_line. Qed.
Print Assumptions C126_line.

(** C126: and so is all that the program writes, whatever its input. *)
Theorem C126_run :
  forall e input,
  exists cs, spells_chars cs (run_cli e rust_text input).1.
Proof. exact c126_run. Qed.
Print Assumptions C126_run.

(** A key whose bytes are no text, and a list of such bytes. *)
Definition odd_store : store :=
  Store {[lit "k" := VBytes [xc3; x28; xff]; lit "l" := VList [[xe2; x82]; lit "ab"]]} ∅.
Example C126_nonvacuous :
  (forall cs, ~ spells_chars cs [xc3; x28; xff]) /\
  (exists s', process (env_std true) rust_text odd_store (lit "get k") =
     (s', LOk ([xef; xbf; xbd] ++ lit "(" ++ [xef; xbf; xbd]))) /\
  (exists s', process (env_std true) rust_text odd_store (lit "get l") = (s', LOk ([xef; xbf; xbd; x0a] ++ lit "a"))) /\
  run_cli (env_std true) rust_text (lit "increment k" ++ [x0a] ++ [xff; x0a]) =
    (lit "> 1" ++ [x0a] ++ lit "> ", EndInvalidUtf8).
Proof.
  split_and!.
  - intros cs Hcs. by apply chars_valid in Hcs.
  - eexists. vm_compute. reflexivity.
  - eexists. vm_compute. reflexivity.
  - vm_compute. reflexivity.
Qed.
