(** Properties of requests as futures: C75.
    The requests are [Futures]; what a program should see of them is in [FutureSpec]. *)
From Coq Require Import String.
From Verif Require Import Bytes BytesFacts Value CommandId Metrics Prog Commands HistorySpec
  EngineProps Client ClientSpec Futures FutureSpec FutureFacts.
From stdpp Require Import gmap list.
From Coq Require Import NArith ZArith.

Definition rel : env := env_std false.
Definition key (x : string) : bytes := lit x.

(** C75: whatever a program does with its requests, the data at the end is what making the calls gives,
    in the order in which the requests are first polled and each once, and every first poll is ready
    with the result its call has there; polling a request again panics, and making or dropping one
    does nothing. *)
Theorem C75_first_poll :
  forall (h : list event) (s : store),
  lawful h ->
  pr_store (events h s) = (mem_calls (first_polls h) s).1 /\
  length (pr_seen (events h s)) = length h /\
  forall j ev, h !! j = Some ev ->
    pr_seen (events h s) !! j = Some
      (match first_poll h j with
       | Some (e, c) => shows (mem_call e (mem_calls (first_polls (take j h)) s).1 c).2
       | None => match ev with EPoll _ _ => SPanic | _ => SNothing end
       end).
Proof. exact c75. Qed.
Print Assumptions C75_first_poll.

(** C75: requests that are never polled change nothing. *)
Theorem C75_unpolled :
  forall (h : list event) (s : store),
  Forall (fun ev => match ev with EPoll _ _ => False | _ => True end) h ->
  pr_store (events h s) = s.
Proof. exact c75_unpolled. Qed.
Print Assumptions C75_unpolled.

(** Made in one order and polled in another; the third is dropped, the first is polled again, the
    last is dropped after its call was made. *)
Definition busy : list event :=
  [EMake (KGet (key "n")); EMake (KIncrement (key "n") None); EMake (KDelete (key "n"));
   EPoll rel 1; EPoll rel 0; EPoll rel 0; EDrop 2; EMake (KIncrement (key "n") None);
   EPoll rel 3; EDrop 3].
Example C75_nonvacuous :
  lawful busy /\
  first_polls busy = [(rel, KIncrement (key "n") None); (rel, KGet (key "n"));
                      (rel, KIncrement (key "n") None)] /\
  pr_seen (events busy store_new) =
    [SNothing; SNothing; SNothing; SReady (ROk (RpValue (VInteger 1)));
     SReady (ROk (RpValue (VInteger 1))); SPanic; SNothing; SNothing;
     SReady (ROk (RpValue (VInteger 2))); SNothing].
Proof.
  split; [|vm_compute; split; reflexivity].
  intros j ev i Hj Hu.
  do 10 (destruct j as [|j];
    [injection Hj as <-;
     first [discriminate Hu | injection Hu as <-; split; [cbn; lia|reflexivity]]|]).
  discriminate Hj.
Qed.
