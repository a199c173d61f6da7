(** What a user of the command line expects. *)
From Coq Require Import String.
From Verif Require Import Bytes Utf8 Value CommandId Request Prog Commands EngineSpec WireSpec
  RequestSpec HistorySpec Client ClientSpec Cli.
From stdpp Require Import gmap list.
From Coq Require Import NArith ZArith.
From Coq.Init Require Import Byte.

(** ** Lines *)

(** A word has no space in it. *)
Definition word (w : bytes) : Prop := x20 ∉ w.

(** A line is a first word and more words, each after a space. *)
Definition line_of (name : bytes) (words : list bytes) : bytes :=
  name ++ concat (map (fun w => x20 :: w) words).

(** The words for a key type. *)
Definition type_words (t : key_type) : list bytes :=
  match t with
  | KTBoolean => [lit "boolean"; lit "bool"]
  | KTBytes => [lit "bytes"]
  | KTFloat => [lit "float"]
  | KTInteger => [lit "integer"; lit "int"]
  | KTList => [lit "list"]
  | KTMap => [lit "map"]
  | KTSet => [lit "set"]
  | KTString => [lit "string"; lit "str"]
  end%string.

(** The first word names a command, and a key type after a colon; bytes if there is none. *)
Inductive spelled : bytes -> command_id -> key_type -> Prop :=
| spelled_plain c : spelled (command_name c) c KTBytes
| spelled_typed c t n : n ∈ type_words t -> spelled (command_name c ++ lit ":" ++ n) c t.

(** [digits ds n]: [ds] are the decimal digits of [n], most significant first; there may be
    leading zeros. *)
Inductive digits : bytes -> Z -> Prop :=
| digits_nil : digits [] 0
| digits_snoc ds n d : digits ds n -> (0 <= d < 10)%Z ->
    digits (ds ++ [n2b (48 + Z.to_N d)]) (10 * n + d).

(** A decimal integer, perhaps with a sign. *)
Definition decimal (w : bytes) (z : Z) : Prop :=
  exists ds n, digits ds n /\ ds <> [] /\
    ((w = ds /\ z = n) \/ (w = lit "+"%string ++ ds /\ z = n) \/ (w = lit "-"%string ++ ds /\ z = (- n)%Z)).

(** The argument a word stands for. *)
Definition word_means (x : text) (t : key_type) (w a : bytes) : Prop :=
  match t with
  | KTBoolean => (w = lit "true"%string /\ a = [x01]) \/ (w = lit "false"%string /\ a = [x00])
  | KTFloat => exists f, parse_f64 x w = Some f /\ a = be_enc 8 f
  | KTInteger => exists z, decimal w z /\ i64_range z /\ a = i64_enc z
  | _ => a = w
  end.

(** How many words are keys. *)
Definition key_words (c : command_id) : nat :=
  match c with CEcho | CStats => 0 | CRename => 2 | _ => 1 end.

(** The arguments the words of a line stand for; a map is made of pairs. *)
Definition words_mean (x : text) (c : command_id) (t : key_type) (words args : list bytes) : Prop :=
  match c with
  | CExists | CIs => args = words
  | _ =>
    words = [] /\ args = [] \/
    exists keys rest rest', words = keys ++ rest /\ args = keys ++ rest' /\
      length keys = key_words c /\ Forall2 (word_means x t) rest rest' /\
      (t = KTMap -> Nat.even (length rest) = true)
  end.

(** ** What the line does *)

(** The call of the client a line stands for.  [None]: too few words, or a command the client is
    not asked to run. *)
Definition cli_call (c : command_id) (t : key_type) (args : list bytes) : option client_call :=
  match c, args with
  | CDecrement, k :: _ => Some (KDecrement k None)
  | CDelete, k :: _ => Some (KDelete k)
  | CEcho, _ :: _ => Some (KEcho (join_with (lit " "%string) args))
  | CExists, _ :: _ => if (lenN args <=? 255)%N then Some (KExists args) else None
  | CGet, k :: _ => Some (KGet k)
  | CIncrement, k :: _ => Some (KIncrement k None)
  | CIs, _ :: _ => if (lenN args <=? 255)%N then Some (KIs t args) else None
  | CKeys, k :: _ => Some (KKeys k)
  | CRename, k :: k' :: _ => Some (KRename k k')
  | CStats, _ => Some KStats
  | CType, k :: _ => Some (KKeyType k)
  | _, _ => None
  end.

(** The message for too few words. *)
Definition missing (c : command_id) (args : list bytes) : option bytes :=
  match c, args with
  | CEcho, [] => Some []
  | CIs, [] => Some (lit "Too few arguments were provided for this command.")
  | CRename, [] => Some (lit "The destination key name is required.")
  | CRename, [_] => Some (lit "The source key name is required.")
  | (CDecrement | CDelete | CExists | CGet | CIncrement | CKeys | CType), [] =>
    Some (lit "Specifying a key is required.")
  | _, _ => None
  end%string.

(** The commands the command line can run. *)
Definition can_run (c : command_id) : bool :=
  match c with
  | CAppend | CDecrementBy | CIncrementBy | CLength | CSet => false
  | _ => true
  end.

(** The text of an answer. *)
Definition reply_text (e : env) (x : text) (c : command_id) (r : reply) : outcome bytes :=
  match r with
  | RpValue v => print_value e x v
  | RpBytes b => Ok (lossy b)
  | RpItems l => Ok (join_with (match c with CKeys => [x0a] | _ => [x20] end) (map lossy l))
  | RpBool b => Ok (lit (if b then "true" else "false")%string)
  | RpInt z => Ok (show_i64 z)
  | RpType t => Ok (default [] (last (type_words t)))  (* the shortest of its words *)
  | RpStats successful errored started ended =>
    Ok (join_with [x0a] [lit "Commands successful: "%string ++ show_i64 successful;
                    lit "Commands errored: "%string ++ show_i64 errored;
                    lit "Sessions started: "%string ++ show_i64 started;
                    lit "Sessions ended: "%string ++ show_i64 ended])
  end.

(** The message for a failed call. *)
Definition error_text (err : client_error) : bytes :=
  lit match err with
  | CERunningCommand EArgumentRetrieval => "Too few arguments were provided for this command."
  | CERunningCommand EKeyNonexistent => "The specified key does not exist."
  | CERunningCommand EKeyTypeDifferent =>
    "The type of the key is different than specified by the command."
  | CERunningCommand EKeyTypeInvalid =>
    "A key type was provided that isn't supported by the command."
  | CERunningCommand EKeyTypeRequired => "A key type was required but one was not specified."
  | CERunningCommand EKeyTypeUnexpected =>
    "A key type was specified when the command can't be given one."
  | CERunningCommand EKeyUnspecified => "Specifying a key is required."
  | CERunningCommand EPreconditionFailed => "A precondition failed, such as the key not existing."
  | CEBuildingRequest _ => "Building the request failed, such as due to too many arguments."
  | CEDispatching _ => "The engine failed to properly run the request."
  | CEKeyTypeInvalid _ | CEKeyTypeUnsupported _ _ =>
    "A key type was provided that isn't supported by the command."
  | _ => "The server rejected the request due to being invalid."
  end%string.

(** What is printed for the result of a call. *)
Definition call_text (e : env) (x : text) (c : command_id) (r : client_res reply) : line_res bytes :=
  match r with
  | ROk r => match reply_text e x c r with Ok out => LOk out | Panic => LPanic end
  | RErr err => LOk (error_text err)
  | RPanic | RNever => LPanic
  end.

(** ** Printing *)

(** Each item on a line of its own. *)
Definition text_lines (items : list bytes) : bytes :=
  concat (map (fun item => item ++ [x0a]) items).

(** The text of a pair. *)
Definition pair_text (kv : bytes * bytes) : bytes := lossy kv.1 ++ lit "="%string ++ lossy kv.2.

(** The texts of the parts of a collection. *)
Definition texts (e : env) (v : value) : option (list bytes) :=
  match v with
  | VList l => Some (map lossy l)
  | VSet s => Some (map lossy (set_iter e s))
  | VMap m => Some (map pair_text (map_iter e m))
  | _ => None
  end.

(** ** Sessions *)

(** The code points with Unicode's property [White_Space]. *)
Definition spaces : list N :=
  ([9; 10; 11; 12; 13; 32; 133; 160; 5760; 8192; 8193; 8194; 8195; 8196; 8197; 8198; 8199; 8200;
    8201; 8202; 8232; 8233; 8239; 8287; 12288])%N.


(** [answers e x s lines outs s']: each line is answered in turn. *)
Inductive answers (e : env) (x : text) : store -> list bytes -> list bytes -> store -> Prop :=
| answers_nil s : answers e x s [] [] s
| answers_cons s line s1 out lines outs s2 :
    utf8_valid line = true -> process e x s (trim_end line) = (s1, LOk out) ->
    answers e x s1 lines outs s2 -> answers e x s (line :: lines) (out :: outs) s2.

(** What the user sees. *)
Definition transcript (outs : list bytes) : bytes :=
  concat (map (fun out => lit "> "%string ++ out ++ [x0a]) outs).
