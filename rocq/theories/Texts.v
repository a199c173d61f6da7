(** The texts of the errors ([Display]). *)
From Coq Require Import String.
From Verif Require Import Bytes Utf8 Value CommandId Request Metrics Prog Commands Client Cli.
From stdpp Require Import list.
From Coq Require Import NArith ZArith.

(** [Display for Error], engine/src/command/error.rs:22-37 *)
Definition dispatch_text (err : dispatch_error) : bytes :=
  lit match err with
  | EArgumentRetrieval => "couldn't retrieve required argument"
  | EKeyNonexistent => "the specified key does not exist"
  | EKeyTypeDifferent => "the key has a different type than required"
  | EKeyTypeInvalid => "the specified key type is not supported by the command"
  | EKeyTypeRequired => "a key type is required to be specified"
  | EKeyTypeUnexpected => "didn't expect a specified request key type"
  | EKeyUnspecified => "the key wasn't specified"
  | EPreconditionFailed => "a precondition for the command failed"
  end%string.

(** The derived [Debug] of the same, engine/src/command/error.rs:9-20 *)
Definition dispatch_name (err : dispatch_error) : bytes :=
  lit match err with
  | EArgumentRetrieval => "ArgumentRetrieval"
  | EKeyNonexistent => "KeyNonexistent"
  | EKeyTypeDifferent => "KeyTypeDifferent"
  | EKeyTypeInvalid => "KeyTypeInvalid"
  | EKeyTypeRequired => "KeyTypeRequired"
  | EKeyTypeUnexpected => "KeyTypeUnexpected"
  | EKeyUnspecified => "KeyUnspecified"
  | EPreconditionFailed => "PreconditionFailed"
  end%string.

(** [Display for RequestBuilderError], engine/src/command/request/builder.rs:17-27 *)
Definition builder_text (err : builder_error) : bytes :=
  lit match err with
  | BEArgumentEmpty => "the provided argument is empty"
  | BETooManyArguments => "too many arguments have been given to the builder"
  | BEValueEmpty => "the provided value variant is empty (0 length)"
  end%string.

(** The derived [Debug] of the same, engine/src/command/request/builder.rs:10-15 *)
Definition builder_name (err : builder_error) : bytes :=
  lit match err with
  | BEArgumentEmpty => "ArgumentEmpty"
  | BETooManyArguments => "TooManyArguments"
  | BEValueEmpty => "ValueEmpty"
  end%string.

(** The derived [Debug] of [ParseError], engine/src/command/request/context.rs:9-14 *)
Definition parse_error_name (err : parse_error) : bytes :=
  lit match err with
  | PECommandIdInvalid => "CommandIdInvalid"
  | PEKeyTypeInvalid => "KeyTypeInvalid"
  end%string.

(** [Display for CommandConfigurationError], client/src/request/mod.rs:47-54 *)
Definition config_text (err : config_error) : bytes :=
  lit match err with
  | NoKeys => "no keys were provided"
  | TooManyKeys => "too many keys were provided"
  end%string.

(** [u8::to_string]; client/src/backend/memory.rs:42-49. *)
Definition show_u8 (n : N) : bytes := show_i64 (Z.of_N n).

(** [Display for Error], client/src/backend/memory.rs:29-54, for the errors a memory client has.
    [show] is the derived [Debug] of [Value]: it is left open. *)
Definition memory_text (show : value -> bytes) (err : client_error) : option bytes :=
  match err with
  | CEBadRequest source => Some (lit "request is invalid: " ++ parse_error_name source)
  | CEBuildingRequest source => Some (lit "failed to build request: " ++ builder_name source)
  | CEDispatching source => Some (lit "dispatching the request failed: " ++ dispatch_name source)
  | CEKeyTypeInvalid number =>
      Some (lit "the provided key type (" ++ show_u8 number ++ lit ") is invalid")
  | CEKeyTypeUnsupported key_type (Some value) =>
      Some (lit "key type " ++ show_u8 (key_type_to_u8 key_type) ++
            lit " is not supported by this command (value: " ++ show value ++ lit ")")
  | CERunningCommand source => Some (dispatch_text source)
  | CEKeyTypeUnsupported _ None | CEBadResponse | CEConnecting | CEConnectionClosed | CEReadingMessage
  | CEWritingMessage => None
  end.

(** [Display for Error], client/src/backend/server.rs:44-72, for the errors a server client
    has. *)
Definition server_text (err : client_error) : option bytes :=
  match err with
  | CEBadRequest reason => Some (lit "server couldn't parse request: " ++ parse_error_name reason)
  | CEBadResponse => Some (lit "the response wasn't an expected type")
  | CEBuildingRequest source => Some (lit "failed to build request: " ++ builder_name source)
  | CEConnecting => Some (lit "failed to connect")
  | CEConnectionClosed => Some (lit "connection closed")
  | CEDispatching reason => Some (lit "server couldn't process command: " ++ dispatch_name reason)
  | CEKeyTypeInvalid number =>
      Some (lit "the provided key type (" ++ show_u8 number ++ lit ") is invalid")
  | CEKeyTypeUnsupported key_type None =>
      Some (lit "key type " ++ show_u8 (key_type_to_u8 key_type) ++
            lit " is not supported by this command")
  | CEReadingMessage => Some (lit "failed to read a message")
  | CEWritingMessage => Some (lit "failed to write a message")
  | CEKeyTypeUnsupported _ (Some _) | CERunningCommand _ => None
  end.

(** [key_type_name], cli/lib/src/parse.rs:208-219 *)
Definition type_text (t : key_type) : bytes :=
  lit match t with
  | KTBoolean => "bool"
  | KTBytes => "bytes"
  | KTFloat => "float"
  | KTInteger => "int"
  | KTList => "list"
  | KTMap => "map"
  | KTSet => "set"
  | KTString => "str"
  end%string.

(** [Display for ParseError], cli/lib/src/parse.rs:24-48 *)
Definition line_text (err : line_error) : bytes :=
  match err with
  | LEArgumentInvalid argument key_type =>
      lit "the argument '" ++ argument ++ lit "' is not a " ++ type_text key_type
  | LEBuildingRequest source => lit "Failed to build request: " ++ builder_text source
  | LEInvalidCommandType provided_name =>
      lit "the command '" ++ provided_name ++ lit "' is invalid"
  | LEKeyUnspecified => lit "A key is required for this command but none was provided"
  | LEMapIncomplete key => lit "the map has an incomplete key-value; the last key was " ++ key
  | LENoCommandProvided => lit "no command was provided"
  end.

(** [Display for ProcessError], cli/lib/src/process.rs:24-41, for a line that could not be read;
    with a memory client and a [String] there is no other. *)
Definition process_text (err : line_error) : bytes := lit "failed to parse input: " ++ line_text err.
