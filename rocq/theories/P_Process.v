(** Properties of the server process: C78, C79.
    The process is [Process], the vocabulary is in [ProcessSpec]. *)
From Coq Require Import String.
From Verif Require Import Bytes BytesFacts Value CommandId Request Metrics Prog Commands CliSpec Server
  ServerSpec ServerProps Process ProcessSpec ProcessFacts.
From stdpp Require Import gmap list.
From Coq Require Import NArith ZArith.

Definition rel : env := env_std false.

(** C78: the port. *)
Theorem C78_port :
  forall (ip : Type) (any : ip) parse_ip host port,
  let c := sconfig_new any parse_ip host port in
  (forall w n, port = Some w -> port_number w n -> sc_port c = n) /\
  ((forall w n, port = Some w -> ~ port_number w n) -> sc_port c = 46733%Z).
Proof. exact c78_port. Qed.
Print Assumptions C78_port.

(** C78: the host; what is an address is up to the standard library. *)
Theorem C78_host :
  forall (ip : Type) (any : ip) parse_ip host port,
  let c := sconfig_new any parse_ip host port in
  (forall w a, host = Some w -> parse_ip w = Some a -> sc_host c = a) /\
  ((forall w a, host = Some w -> parse_ip w <> Some a) -> sc_host c = any).
Proof. exact c78_host. Qed.
Print Assumptions C78_host.

Example C78_nonvacuous :
  port_number (lit "+08080") 8080 /\
  sc_port (sconfig_new 0%N (fun _ => None) (Some (lit "nowhere")) (Some (lit "+08080"))) = 8080%Z /\
  map (fun w => sc_port (sconfig_new 0%N (fun _ => None) None (Some (lit w))))
    [""; "65535"; "65536"; "-1"; "80 "; "+"]%string =
  [46733; 65535; 46733; 46733; 46733; 46733]%Z.
Proof.
  split; [|split; vm_compute; reflexivity].
  apply parse_u16_spec. vm_compute. reflexivity.
Qed.

(** C79 is false: when accepting one connection fails, nobody can connect ever after, whatever
    happens, and the process may end at any moment, with all it stored. *)
Theorem C79_refuted :
  (forall e evs1 evs2 x,
   process_after e (evs1 ++ PAcceptFail :: evs2) x ->
   ~ accepts e x /\ PAccept ∉ evs2 /\
   (PShutdown ∉ evs2 -> process_step e x PShutdown = Some (Process MExited ([], store_new) 0))) /\
  exists x, process_after rel
    [PBind true; PAccept; PTask (EDeliver 0 [n2b (command_id_to_u8 CStats); newline]); PAcceptFail;
     PTask (EStep 0)] x.
Proof. split; [exact c79_false|]. apply process_ran. vm_compute. reflexivity. Qed.
Print Assumptions C79_refuted.

(** C79, the part that holds: a server that could bind accepts connections until an accept fails; nothing
    that is sent, no crash of a task and no peer that is gone at once prevents it. *)
Theorem C79_accepts_partial :
  forall e evs x,
  process_after e evs x ->
  (accepts e x <-> PBind true ∈ evs /\ PAcceptFail ∉ evs).
Proof. exact c79_accepts. Qed.
Print Assumptions C79_accepts_partial.

(** C79: and until the process ends, what happens on the connections is a run of [Server], to which C39 -
    C41 and C65 apply. *)
Theorem C79_serves_partial :
  forall e evs x,
  process_after e evs x -> PShutdown ∉ evs ->
  server_run e (on_connections evs) ([], store_new) = Some (p_server x).
Proof. exact c79_serves. Qed.
Print Assumptions C79_serves_partial.

Example C79_nonvacuous :
  let evs := [PBind true; PAccept; PAcceptGone; PTask (EDeliver 0 [n2b (command_id_to_u8 CStats); newline]);
              PTask (EStep 0); PAccept; PTask (EEnd 1); PTask (EStep 1)] in
  PBind true ∈ evs /\ PAcceptFail ∉ evs /\ PShutdown ∉ evs /\
  match process_run rel evs process_new with
  | Some x => length (p_server x).1 = 2%nat /\ p_gone x = 1%nat
  | None => False
  end.
Proof.
  split; [left|]. split; [|split; [|vm_compute; split; reflexivity]].
  all: intros H; repeat (apply elem_of_cons in H as [H|H]; [discriminate|]); by apply elem_of_nil in H.
Qed.
