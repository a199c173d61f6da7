(** The server process around the connections: server/src/main.rs:23-80.

    Reading an address from text ([IpAddr::from_str]) is an arbitrary function. *)
From Verif Require Import Bytes Value CommandId Request Metrics Prog Commands Cli Server.
From stdpp Require Import list.
From Coq Require Import NArith ZArith.
From Coq.Init Require Import Byte.

(** ** Configuration *)

(** [checked_mul] and [checked_add] on [u16] (helper for [parse::<u16>],
    server/src/main.rs:38). *)
Definition u16_checked (z : Z) : option Z :=
  if ((0 <=? z) && (z <? 65536))%Z then Some z else None.

(** The loop of [u16::from_str_radix(_, 10)] (helper for [parse::<u16>],
    server/src/main.rs:38). *)
Fixpoint parse_digits_u16 (acc : Z) (s : bytes) : option Z :=
  match s with
  | [] => Some acc
  | b :: s =>
    match digit b with
    | None => None
    | Some d =>
      match u16_checked (acc * 10) with
      | None => None
      | Some acc =>
        match u16_checked (acc + d) with
        | None => None
        | Some acc => parse_digits_u16 acc s
        end
      end
    end
  end.

(** [str::parse::<u16>().ok()], server/src/main.rs:38: a plus sign needs digits after it, a
    minus sign is no digit. *)
Definition parse_u16 (s : bytes) : option Z :=
  match s with
  | [] => None
  | b :: r =>
    if decide (b = x2b) then match r with [] => None | _ => parse_digits_u16 0 r end
    else parse_digits_u16 0 s
  end.

(** [Config], server/src/main.rs:23-26. *)
Record sconfig (ip : Type) := SConfig { sc_host : ip; sc_port : Z }.
Arguments SConfig {ip} _ _.
Arguments sc_host {ip} _.
Arguments sc_port {ip} _.

(** [Config::PORT_DEFAULT], server/src/main.rs:30. *)
Definition port_default : Z := 46733.

(** [Config::new], server/src/main.rs:32-43.  [any] is [HOST_DEFAULT] (29), [parse_ip] is
    [IpAddr::from_str]; a variable is [None] when it is not set or not Unicode. *)
Definition sconfig_new {ip : Type} (any : ip) (parse_ip : bytes -> option ip)
  (host port : option bytes) : sconfig ip :=
  SConfig
    match host with
    | Some h => match parse_ip h with Some a => a | None => any end
    | None => any
    end
    match port with
    | Some p => match parse_u16 p with Some n => n | None => port_default end
    | None => port_default
    end.

(** ** The process *)

(** What [main] is doing, server/src/main.rs:46-69. *)
Inductive main_state :=
| MStarting     (* before [TcpListener::bind] returns, 56 *)
| MListening    (* in the loop, 64-66 *)
| MReturned     (* [main] has returned; the runtime is about to stop the tasks *)
| MExited.      (* the process is over *)

(** [main], the tasks with the engine, and the number of tasks that panicked because the
    peer's address was not available (server/src/main.rs:72; such a task does nothing else). *)
Record process := Process { p_main : main_state; p_server : server; p_gone : nat }.

(** server/src/main.rs:46-58. *)
Definition process_new : process := Process MStarting server_new 0.

(** What can happen; server/src/main.rs:46-80. *)
Inductive process_event :=
| PBind (ok : bool)        (* 56: an error ends [main] *)
| PAccept                  (* 64-65 *)
| PAcceptGone              (* 64-65, then [peer_addr().unwrap()] panics (72) *)
| PAcceptFail              (* 64: [Some(Err(_))] does not match, the loop ends *)
| PTask (ev : event)       (* anything on the connections there are *)
| PShutdown.               (* dropping the runtime ends all tasks, after 69 *)

(** server/src/main.rs:46-80 *)
Definition process_step (e : env) (x : process) (ev : process_event) : option process :=
  match ev with
  | PBind ok =>
    match p_main x with
    | MStarting => Some (Process (if ok then MListening else MReturned) (p_server x) (p_gone x))
    | _ => None
    end
  | PAccept =>
    match p_main x with
    | MListening =>
      match server_event e (p_server x) EConnect with
      | Some s => Some (Process MListening s (p_gone x))
      | None => None
      end
    | _ => None
    end
  | PAcceptGone =>
    match p_main x with
    | MListening => Some (Process MListening (p_server x) (S (p_gone x)))
    | _ => None
    end
  | PAcceptFail =>
    match p_main x with
    | MListening => Some (Process MReturned (p_server x) (p_gone x))
    | _ => None
    end
  | PTask EConnect => None
  | PTask ev =>
    match p_main x with
    | MListening | MReturned =>
      match server_event e (p_server x) ev with
      | Some s => Some (Process (p_main x) s (p_gone x))
      | None => None
      end
    | _ => None
    end
  | PShutdown =>
    match p_main x with
    | MReturned => Some (Process MExited server_new 0)
    | _ => None
    end
  end.

(** Any sequence of events, server/src/main.rs:46-80. *)
Fixpoint process_run (e : env) (evs : list process_event) (x : process) : option process :=
  match evs with
  | [] => Some x
  | ev :: r => match process_step e x ev with Some y => process_run e r y | None => None end
  end.
