(** The command line: cli/lib/src/parse.rs, cli/lib/src/print.rs, cli/lib/src/process.rs and
    cli/bin/src/main.rs, with the parts of Rust's library they call.

    Not modelled: input and output errors other than invalid
    UTF-8. *)
From Coq Require Import String.
From Verif Require Import Bytes Utf8 Value CommandId Request Metrics Prog Commands Client.
From stdpp Require Import gmap list.
From Coq Require Import NArith ZArith.
From Coq.Init Require Import Byte.

(** Reading and printing decimal floats is left open: any functions will do;
    cli/lib/src/parse.rs:140, cli/lib/src/print.rs:48. *)
Record text := Text {
  parse_f64 : bytes -> option N;   (** [str::parse::<f64>().ok()], as its bits *)
  show_f64 : N -> bytes            (** [f64::to_string] *)
}.

(** ** Rust's library *)

(** [s.split(c).collect()]; cli/lib/src/parse.rs:59. *)
Fixpoint split_on (c : byte) (s : bytes) : list bytes :=
  match s with
  | [] => [[]]
  | b :: s =>
    if decide (b = c) then [] :: split_on c s
    else match split_on c s with
         | [] => [[b]]
         | w :: ws => (b :: w) :: ws
         end
  end.

(** [s.rsplitn(2, c)]: what follows the last [c] (all of [s] if there is none), and what
    precedes it; cli/lib/src/parse.rs:185. *)
Fixpoint rsplit (c : byte) (s : bytes) : bytes * option bytes :=
  match s with
  | [] => ([], None)
  | b :: s =>
    match rsplit c s with
    | (x, Some y) => (x, Some (b :: y))
    | (x, None) => if decide (b = c) then (x, Some []) else (b :: x, None)
    end
  end.

(** [str::parse::<bool>().ok()]; cli/lib/src/parse.rs:129. *)
Definition parse_bool (s : bytes) : option bool :=
  if bytes_eqb s (lit "true") then Some true
  else if bytes_eqb s (lit "false") then Some false
  else None.

(** A decimal digit (helper for [parse::<i64>], cli/lib/src/parse.rs:150). *)
Definition digit (b : byte) : option Z :=
  if in_range 48 57 b then Some (Z.of_N (b2n b) - 48)%Z else None.

(** [checked_mul], [checked_add] and [checked_sub] on [i64] (helper for [parse::<i64>], cli/lib/src/parse.rs:150). *)
Definition i64_checked_res (z : Z) : option Z :=
  if ((- i64_half <=? z) && (z <? i64_half))%Z then Some z else None.

(** The loop of [i64::from_str_radix(_, 10)]: [checked_mul], then [checked_add] or
    [checked_sub]; cli/lib/src/parse.rs:150. *)
Fixpoint parse_digits (neg : bool) (acc : Z) (s : bytes) : option Z :=
  match s with
  | [] => Some acc
  | b :: s =>
    match digit b with
    | None => None
    | Some d =>
      match i64_checked_res (acc * 10) with
      | None => None
      | Some acc =>
        match i64_checked_res (if neg then acc - d else acc + d)%Z with
        | None => None
        | Some acc => parse_digits neg acc s
        end
      end
    end
  end.

(** [str::parse::<i64>().ok()]: a sign needs digits after it; cli/lib/src/parse.rs:150. *)
Definition parse_i64 (s : bytes) : option Z :=
  match s with
  | [] => None
  | b :: r =>
    if decide (b = x2b) then match r with [] => None | _ => parse_digits false 0 r end
    else if decide (b = x2d) then match r with [] => None | _ => parse_digits true 0 r end
    else parse_digits false 0 s
  end.

(** Decimal digits as ASCII (helper for [i64::to_string], cli/lib/src/print.rs:49). *)
Fixpoint uint_bytes (d : Decimal.uint) : bytes :=
  match d with
  | Decimal.Nil => []
  | Decimal.D0 d => x30 :: uint_bytes d
  | Decimal.D1 d => x31 :: uint_bytes d
  | Decimal.D2 d => x32 :: uint_bytes d
  | Decimal.D3 d => x33 :: uint_bytes d
  | Decimal.D4 d => x34 :: uint_bytes d
  | Decimal.D5 d => x35 :: uint_bytes d
  | Decimal.D6 d => x36 :: uint_bytes d
  | Decimal.D7 d => x37 :: uint_bytes d
  | Decimal.D8 d => x38 :: uint_bytes d
  | Decimal.D9 d => x39 :: uint_bytes d
  end.

(** [i64::to_string]; cli/lib/src/print.rs:49, cli/lib/src/process.rs:310-321. *)
Definition show_i64 (z : Z) : bytes :=
  (if (z <? 0)%Z then [x2d] else []) ++ uint_bytes (N.to_uint (Z.abs_N z)).

(** [bool::to_string]; cli/lib/src/print.rs:46, cli/lib/src/process.rs:258. *)
Definition show_bool (b : bool) : bytes := lit (if b then "true" else "false")%string.

(** U+FFFD; as written by [from_utf8_lossy], cli/lib/src/print.rs:20. *)
Definition replacement : bytes := [xef; xbf; xbd].

(** [String::from_utf8_lossy]: each maximal invalid part becomes U+FFFD
    (core::str::lossy); cli/lib/src/print.rs:20, cli/lib/src/process.rs:223. *)
Fixpoint lossy (bs : bytes) : bytes :=
  match bs with
  | [] => []
  | b0 :: r0 =>
    if in_range 0 127 b0 then b0 :: lossy r0
    else if in_range 194 223 b0 then
      match r0 with
      | b1 :: r1 => if is_cont b1 then b0 :: b1 :: lossy r1 else replacement ++ lossy r0
      | [] => replacement
      end
    else if in_range 224 239 b0 then
      match r0 with
      | b1 :: r1 =>
        if (if in_range 224 224 b0 then in_range 160 191 b1
            else if in_range 237 237 b0 then in_range 128 159 b1
            else is_cont b1)
        then match r1 with
             | b2 :: r2 =>
               if is_cont b2 then b0 :: b1 :: b2 :: lossy r2 else replacement ++ lossy r1
             | [] => replacement
             end
        else replacement ++ lossy r0
      | [] => replacement
      end
    else if in_range 240 244 b0 then
      match r0 with
      | b1 :: r1 =>
        if (if in_range 240 240 b0 then in_range 144 191 b1
            else if in_range 244 244 b0 then in_range 128 143 b1
            else is_cont b1)
        then match r1 with
             | b2 :: r2 =>
               if is_cont b2
               then match r2 with
                    | b3 :: r3 =>
                      if is_cont b3 then b0 :: b1 :: b2 :: b3 :: lossy r3
                      else replacement ++ lossy r2
                    | [] => replacement
                    end
               else replacement ++ lossy r1
             | [] => replacement
             end
        else replacement ++ lossy r0
      | [] => replacement
      end
    else replacement ++ lossy r0
  end.

(** [items.join(sep)]; cli/lib/src/process.rs:227,234,340. *)
Fixpoint join_with (sep : bytes) (items : list bytes) : bytes :=
  match items with
  | [] => []
  | [x] => x
  | x :: items => x ++ sep ++ join_with sep items
  end.

(** [String::truncate(n)]: it panics inside a character and does nothing past the end;
    cli/lib/src/print.rs:24,39. *)
Definition truncate (s : bytes) (n : N) : outcome bytes :=
  if (lenN s <? n)%N then Ok s
  else match get_at s n with
       | Some b => if is_cont b then Panic else Ok (take (N.to_nat n) s)
       | None => Ok s
       end.

(** The whitespace [str::trim_end] removes (Unicode's [White_Space]), as reversed UTF-8:
    given the reversed text, the text without one trailing space, if there is one;
    cli/bin/src/main.rs:33. *)
Definition unspace (r : bytes) : option bytes :=
  match r with
  | x20 :: r | x09 :: r | x0a :: r | x0b :: r | x0c :: r | x0d :: r => Some r
  | x85 :: xc2 :: r | xa0 :: xc2 :: r => Some r
  | x80 :: x9a :: xe1 :: r => Some r
  | x80 :: x80 :: xe2 :: r | x81 :: x80 :: xe2 :: r | x82 :: x80 :: xe2 :: r
  | x83 :: x80 :: xe2 :: r | x84 :: x80 :: xe2 :: r | x85 :: x80 :: xe2 :: r
  | x86 :: x80 :: xe2 :: r | x87 :: x80 :: xe2 :: r | x88 :: x80 :: xe2 :: r
  | x89 :: x80 :: xe2 :: r | x8a :: x80 :: xe2 :: r | xa8 :: x80 :: xe2 :: r
  | xa9 :: x80 :: xe2 :: r | xaf :: x80 :: xe2 :: r => Some r
  | x9f :: x81 :: xe2 :: r => Some r
  | x80 :: x80 :: xe3 :: r => Some r
  | _ => None
  end.

(** [trim_end] on the reversed line (cli/bin/src/main.rs:33). *)
Fixpoint unspaces (fuel : nat) (r : bytes) : bytes :=
  match fuel with
  | O => r
  | S fuel => match unspace r with Some r => unspaces fuel r | None => r end
  end.

(** [str::trim_end]; cli/bin/src/main.rs:33. *)
Definition trim_end (s : bytes) : bytes := rev (unspaces (length s) (rev s)).

(** ** cli/lib/src/parse.rs *)

(** [ParseError], cli/lib/src/parse.rs:15-22 *)
Inductive line_error :=
| LEArgumentInvalid (argument : bytes) (key_type : key_type)
| LEBuildingRequest (source : builder_error)
| LEInvalidCommandType (provided_name : bytes)
| LEKeyUnspecified
| LEMapIncomplete (key : bytes)
| LENoCommandProvided.

(** [Result<A, ParseError>], or a panic; cli/lib/src/parse.rs:58. *)
Inductive line_res (A : Type) := LOk (a : A) | LErr (err : line_error) | LPanic.
Arguments LOk {A} _.
Arguments LErr {A} _.
Arguments LPanic {A}.

(** [key_type], cli/lib/src/parse.rs:194-206 *)
Definition key_type_of_text (s : bytes) : option key_type :=
  if bytes_eqb s (lit "boolean") || bytes_eqb s (lit "bool") then Some KTBoolean
  else if bytes_eqb s (lit "bytes") then Some KTBytes
  else if bytes_eqb s (lit "float") then Some KTFloat
  else if bytes_eqb s (lit "integer") || bytes_eqb s (lit "int") then Some KTInteger
  else if bytes_eqb s (lit "list") then Some KTList
  else if bytes_eqb s (lit "map") then Some KTMap
  else if bytes_eqb s (lit "set") then Some KTSet
  else if bytes_eqb s (lit "string") || bytes_eqb s (lit "str") then Some KTString
  else None.

(** [command], cli/lib/src/parse.rs:180-192 *)
Definition line_command (name : bytes) : option (command_id * option key_type) :=
  match command_id_of_name name with
  | Some c => Some (c, None)
  | None =>
    let '(last, first) := rsplit x3a name in
    match key_type_of_text last, first with
    | Some t, Some first =>
      match command_id_of_name first with
      | Some c => Some (c, Some t)
      | None => None
      end
    | _, _ => None
    end
  end.

(** The [while let] of [input_args], cli/lib/src/parse.rs:125-175, appending to [args] *)
Fixpoint typed_words (x : text) (t : key_type) (words : list bytes) (args : list bytes)
  : line_res (list bytes) :=
  match words with
  | [] => LOk args
  | w :: words =>
    match t with
    | KTBoolean =>
      match parse_bool w with
      | Some b => typed_words x t words (args ++ [[n2b (if b then 1 else 0)%N]])
      | None => LErr (LEArgumentInvalid w KTBoolean)
      end
    | KTBytes => typed_words x t words (args ++ [w])
    | KTFloat =>
      match parse_f64 x w with
      | Some f => typed_words x t words (args ++ [be_enc 8 f])
      | None => LErr (LEArgumentInvalid w KTFloat)
      end
    | KTInteger =>
      match parse_i64 w with
      | Some z => typed_words x t words (args ++ [i64_enc z])
      | None => LErr (LEArgumentInvalid w KTInteger)
      end
    | KTList => typed_words x t words (args ++ [w])
    | KTMap =>
      match words with
      | [] => LOk args
      | v :: words => typed_words x t words (args ++ [w; v])
      end
    | KTSet => typed_words x t words (args ++ [w])
    | KTString => typed_words x t words (args ++ [w])
    end
  end.

(** [input_args], cli/lib/src/parse.rs:95-178 *)
Definition input_args (x : text) (c : command_id) (t : key_type) (words : list bytes)
  : line_res (list bytes) :=
  match key_notation_of c with
  | KNNone => typed_words x t words []
  | KNOne =>
    match words with
    | k :: words => typed_words x t words [k]
    | [] => LErr LEKeyUnspecified
    end
  | KNTwo =>
    match words with
    | k :: k' :: words => typed_words x t words [k; k']
    | _ => LErr LEKeyUnspecified
    end
  | KNMultiple => LOk words
  end.

(** [for arg in ... { builder.bytes(arg)?; }], cli/lib/src/parse.rs:78-80 *)
Fixpoint line_build (e : env) (b : builder) (args : list bytes) : line_res builder :=
  match args with
  | [] => LOk b
  | a :: args =>
    match builder_bytes e b a with
    | Ok (b, None) => line_build e b args
    | Ok (_, Some err) => LErr (LEBuildingRequest err)
    | Panic => LPanic
    end
  end.

(** [parse], cli/lib/src/parse.rs:58-84 *)
Definition parse_line (e : env) (x : text) (input : bytes) : line_res request :=
  match split_on x20 input with
  | [] | [] :: _ => LErr LENoCommandProvided
  | name :: words =>
    match line_command name with
    | None => LErr (LEInvalidCommandType name)
    | Some (c, t) =>
      let t := default KTBytes t in
      let b := builder_new_kt c (Some t) in
      match words with
      | [] => LOk (into_request b)
      | _ =>
        match input_args x c t words with
        | LOk args =>
          match line_build e b args with
          | LOk b => LOk (into_request b)
          | LErr err => LErr err
          | LPanic => LPanic
          end
        | LErr err => LErr err
        | LPanic => LPanic
        end
      end
    end
  end.

(** ** cli/lib/src/print.rs *)

(** [key_type_name], cli/lib/src/print.rs:3-14 *)
Definition key_type_name (t : key_type) : bytes :=
  lit match t with
  | KTBoolean => "bool"
  | KTBytes => "bytes"
  | KTFloat => "float"
  | KTInteger => "int"
  | KTList => "list"
  | KTMap => "map"
  | KTSet => "set"
  | KTString => "str"
  end%string.

(** [output.truncate(output.len() - 2)], cli/lib/src/print.rs:24, 39 *)
Definition drop_two (e : env) (output : bytes) : outcome bytes :=
  obind (usub u64_mod (debug e) (lenN output) 2) (truncate output).

(** [list], cli/lib/src/print.rs:16-27 *)
Definition print_items (e : env) (items : list bytes) : outcome bytes :=
  drop_two e (concat (map (fun item => lossy item ++ [x0a]) items)).

(** [map], cli/lib/src/print.rs:29-42 *)
Definition print_pairs (e : env) (pairs : list (bytes * bytes)) : outcome bytes :=
  drop_two e (concat (map (fun kv => lossy kv.1 ++ [x3d] ++ lossy kv.2 ++ [x0a]) pairs)).

(** [value], cli/lib/src/print.rs:44-55 *)
Definition print_value (e : env) (x : text) (v : value) : outcome bytes :=
  match v with
  | VBoolean b => Ok (show_bool b)
  | VBytes bs => Ok (lossy bs)
  | VFloat f => Ok (show_f64 x f)
  | VInteger z => Ok (show_i64 z)
  | VList l => print_items e l
  | VMap m => print_pairs e (map_iter e m)
  | VSet s => print_items e (set_iter e s)
  | VString s => Ok s
  end.

(** ** cli/lib/src/process.rs *)

(** [InnerProcessError], cli/lib/src/process.rs:75-93, less [Backend] and [WritingOutput], which
    a memory client and a [String] never give *)
Inductive inner_error :=
| IEBadRequest | IEBuildingRequest | IEDispatching | IEKeyDestinationRequired | IEKeyNonexistent
| IEKeyRequiredMinimum | IEKeySourceRequired | IEKeyTypeDifferent | IEKeyTypeInvalid
| IEKeyTypeRequired | IEKeyTypeUnexpected | IEKeyUnspecified | IEPreconditionFailed
| IETooFewArguments | IETooManyArguments.

(** The messages of [process], cli/lib/src/process.rs:122-160 *)
Definition message (err : inner_error) : bytes :=
  lit match err with
  | IEBadRequest => "The server rejected the request due to being invalid."
  | IEBuildingRequest => "Building the request failed, such as due to too many arguments."
  | IEDispatching => "The engine failed to properly run the request."
  | IEKeyDestinationRequired => "The destination key name is required."
  | IEKeyNonexistent => "The specified key does not exist."
  | IEKeyRequiredMinimum => "A minimum of at least one key or more is required."
  | IEKeySourceRequired => "The source key name is required."
  | IEKeyTypeDifferent => "The type of the key is different than specified by the command."
  | IEKeyTypeInvalid => "A key type was provided that isn't supported by the command."
  | IEKeyTypeRequired => "A key type was required but one was not specified."
  | IEKeyTypeUnexpected => "A key type was specified when the command can't be given one."
  | IEKeyUnspecified => "Specifying a key is required."
  | IEPreconditionFailed => "A precondition failed, such as the key not existing."
  | IETooFewArguments => "Too few arguments were provided for this command."
  | IETooManyArguments => "You may only provide at most 255 arguments."
  end%string.

(** [backend_err], cli/lib/src/process.rs:167-201.  The errors only a server client has are not
    there for a memory client. *)
Definition backend_err (err : client_error) : inner_error :=
  match err with
  | CEBadRequest _ => IEBadRequest
  | CEBuildingRequest _ => IEBuildingRequest
  | CEDispatching _ => IEDispatching
  | CEKeyTypeInvalid _ => IEKeyTypeInvalid
  | CEKeyTypeUnsupported _ _ => IEKeyTypeInvalid
  | CERunningCommand source =>
    match source with
    | EArgumentRetrieval => IETooFewArguments
    | EKeyNonexistent => IEKeyNonexistent
    | EKeyTypeDifferent => IEKeyTypeDifferent
    | EKeyTypeInvalid => IEKeyTypeInvalid
    | EKeyTypeRequired => IEKeyTypeRequired
    | EKeyTypeUnexpected => IEKeyTypeUnexpected
    | EKeyUnspecified => IEKeyUnspecified
    | EPreconditionFailed => IEPreconditionFailed
    end
  | CEBadResponse | CEConnecting | CEConnectionClosed | CEReadingMessage | CEWritingMessage => IEBadRequest
  end.

(** The result of [process_inner]: [Ok], [Err] or a panic; cli/lib/src/process.rs:203-206. *)
Inductive inner_res := IOk (output : bytes) | IErr (err : inner_error) | IPanic.

(** [Ok(output.into())], e.g. cli/lib/src/process.rs:216. *)
Definition printed (o : outcome bytes) : inner_res :=
  match o with Ok output => IOk output | Panic => IPanic end.

(** [client.method(..).await.map_err(backend_err)?] and then [f]; a memory client always
    answers; e.g. cli/lib/src/process.rs:214. *)
Definition awaiting {A} (r : store * client_res A) (f : A -> inner_res) : store * inner_res :=
  (r.1, match r.2 with
        | ROk a => f a
        | RErr err => IErr (backend_err err)
        | RPanic | RNever => IPanic
        end).

(** [req.key().ok_or_else(..)?] and the like; e.g. cli/lib/src/process.rs:212. *)
Definition or_else {A} (s : store) (o : option A) (err : inner_error) (f : A -> store * inner_res)
  : store * inner_res :=
  match o with Some a => f a | None => (s, IErr err) end.

(** The errors of [Exists::keys] and [Is::keys], cli/lib/src/process.rs:101-108, 246-254 *)
Definition keyed (s : store) (keys : list bytes) (f : list bytes -> store * inner_res)
  : store * inner_res :=
  match checked_keys keys with
  | inr keys => f keys
  | inl NoKeys => (s, IErr IEKeyRequiredMinimum)
  | inl TooManyKeys => (s, IErr IETooManyArguments)
  end.

(** [process_inner] with a memory client, cli/lib/src/process.rs:203-334; [print_list],
    336-341, joins with newlines. *)
Definition process_inner (e : env) (x : text) (s : store) (req : request) : store * inner_res :=
  match r_command req with
  | CDecrement =>
    or_else s (Request.key req) IEKeyUnspecified (fun key =>
    awaiting (mem_decrement e s key None) (fun v => printed (print_value e x v)))
  | CDelete =>
    or_else s (Request.key req) IEKeyUnspecified (fun key =>
    awaiting (mem_delete e s key) (fun v => IOk (lossy v)))
  | CEcho =>
    match args_all req with
    | Some req_args =>
      awaiting (mem_echo e s (join_with [x20] (arguments_collect req_args))) (fun args =>
      IOk (join_with [x20] (map lossy args)))
    | None => (s, IOk [])
    end
  | CExists =>
    or_else s (args_all req) IEKeyUnspecified (fun args =>
    keyed s (arguments_collect args) (fun keys =>
    awaiting (mem_exists e s keys) (fun b => IOk (show_bool b))))
  | CGet =>
    or_else s (Request.key req) IEKeyUnspecified (fun key =>
    awaiting (mem_get e s key) (fun v => printed (print_value e x v)))
  | CIncrement =>
    or_else s (Request.key req) IEKeyUnspecified (fun key =>
    awaiting (mem_increment e s key None) (fun v => printed (print_value e x v)))
  | CIs =>
    or_else s (r_key_type req) IEKeyTypeRequired (fun t =>
    or_else s (args_all req) IETooFewArguments (fun args =>
    keyed s (arguments_collect args) (fun keys =>
    awaiting (mem_is e s t keys) (fun b => IOk (show_bool b)))))
  | CKeys =>
    or_else s (Request.key req) IEKeyUnspecified (fun key =>
    awaiting (mem_keys e s key) (fun l => IOk (join_with [x0a] (map lossy l))))
  | CRename =>
    or_else s (Request.key req) IEKeyDestinationRequired (fun from =>
    or_else s (arg req 1) IEKeySourceRequired (fun to =>
    awaiting (mem_rename e s from to) (fun v => IOk (lossy v))))
  | CStats =>
    awaiting (mem_stats e s) (fun d =>
    IOk (lit "Commands successful: " ++ show_i64 (stats_commands_successful d) ++ [x0a] ++
         lit "Commands errored: " ++ show_i64 (stats_commands_errored d) ++ [x0a] ++
         lit "Sessions started: " ++ show_i64 (stats_sessions_started d) ++ [x0a] ++
         lit "Sessions ended: " ++ show_i64 (stats_sessions_ended d)))
  | CType =>
    or_else s (Request.key req) IEKeyUnspecified (fun key =>
    awaiting (mem_key_type e s key) (fun t => IOk (key_type_name t)))
  | CAppend | CDecrementBy | CIncrementBy | CLength | CSet => (s, IPanic)
  end.

(** [process] with a memory client, cli/lib/src/process.rs:110-165: [Ok] with the text to print,
    [Err(ParsingInput)] or a panic *)
Definition process (e : env) (x : text) (s : store) (input : bytes) : store * line_res bytes :=
  match parse_line e x input with
  | LErr err => (s, LErr err)
  | LPanic => (s, LPanic)
  | LOk req =>
    let '(s, r) := process_inner e x s req in
    (s, match r with
        | IOk output => LOk output
        | IErr err => LOk (message err)
        | IPanic => LPanic
        end)
  end.

(** ** cli/bin/src/main.rs *)

(** The lines [read_line] reads from an input, each with its newline; at the end of the input it
    reads nothing, and will do so again; cli/bin/src/main.rs:31. *)
Fixpoint lines_of (input : bytes) : list bytes :=
  match input with
  | [] => []
  | b :: r =>
    if decide (b = x0a) then [b] :: lines_of r
    else match lines_of r with
         | [] => [[b]]
         | l :: ls => (b :: l) :: ls
         end
  end.

(** How the program ends; cli/bin/src/main.rs:12-19. *)
Inductive ending := EndError (err : line_error) | EndInvalidUtf8 | EndPanic.

(** The loop of [run], cli/bin/src/main.rs:21-39, on the lines still to be read: what it writes,
    and how it ends. *)
Fixpoint session (e : env) (x : text) (s : store) (lines : list bytes) : bytes * ending :=
  let prompt := lit "> "%string in
  let take_line (line : bytes) (k : store -> bytes * ending) :=
    if utf8_valid line then
      match process e x s (trim_end line) with
      | (s, LOk output) => let '(w, end_) := k s in (prompt ++ output ++ [x0a] ++ w, end_)
      | (_, LErr err) => (prompt, EndError err)
      | (_, LPanic) => (prompt, EndPanic)
      end
    else (prompt, EndInvalidUtf8) in
  match lines with
  | line :: lines => take_line line (fun s => session e x s lines)
  | [] => take_line [] (fun s => ([], EndPanic))
  end.

(** The program on an input, cli/bin/src/main.rs:12-39. *)
Definition run_cli (e : env) (x : text) (input : bytes) : bytes * ending :=
  session e x store_new (lines_of input).
