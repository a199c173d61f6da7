(** The timer, lib/timer/src/lib.rs *)
From Verif Require Import Bytes.
From Coq Require Import NArith ZArith Bool.

(** [libc::timespec] on 64-bit Linux: two signed 64-bit numbers; lib/timer/src/lib.rs:55. *)
Record timespec := Timespec { tv_sec : Z; tv_nsec : Z }.

(** [core::time::Duration] in nanoseconds; [Duration::new(s, ns)] carries excess
    nanoseconds into the seconds; lib/timer/src/lib.rs:54,64-65. *)
Definition nanos : N := 1000000000.
(** [Duration::new], lib/timer/src/lib.rs:252. *)
Definition duration_new (s ns : N) : N := (s * nanos + ns)%N.

(** [parse_timespec], lib/timer/src/lib.rs:240-253.  [Duration::new] could only overflow
    with more than 2^63 seconds. *)
Definition parse_timespec (t : timespec) : N :=
  let s := if (tv_sec t <? 0)%Z then 0%N else Z.to_N (tv_sec t) in
  if ((0 <=? tv_nsec t)%Z && (tv_nsec t <? 4294967296)%Z)%bool
  then duration_new s (Z.to_N (tv_nsec t))
  else if (tv_nsec t <? 0)%Z then duration_new s 0
  else duration_new (s - 1) 999999999.

(** [Timer], lib/timer/src/lib.rs:62-66 *)
Record timer := Timer { t_start : option N; t_stop : option N }.

(** [Timer::new], lib/timer/src/lib.rs:91-93 *)
Definition timer_new : timer := Timer None None.

(** [Timer::start], lib/timer/src/lib.rs:113-121; [now] is what the clock reads. *)
Definition timer_start (t : timer) (now : timespec) : timer * bool :=
  match t_start t with
  | Some _ => (t, false)
  | None => (Timer (Some (parse_timespec now)) (t_stop t), true)
  end.

(** [Timer::duration], lib/timer/src/lib.rs:176-178; [Duration]'s subtraction panics
    when the result is negative. *)
Definition timer_duration (t : timer) : outcome (option N) :=
  match t_stop t, t_start t with
  | Some b, Some a => if (a <=? b)%N then Ok (Some (b - a)%N) else Panic
  | _, _ => Ok None
  end.

(** [Timer::stop], lib/timer/src/lib.rs:145-153 *)
Definition timer_stop (t : timer) (now : timespec) : timer * outcome (option N) :=
  match t_start t, t_stop t with
  | None, _ | _, Some _ => (t, Ok None)
  | Some a, None =>
    let t := Timer (Some a) (Some (parse_timespec now)) in (t, timer_duration t)
  end.

(** [Timer::is_running], lib/timer/src/lib.rs:199-201 *)
Definition timer_is_running (t : timer) : bool :=
  match t_start t, t_stop t with Some _, None => true | _, _ => false end.

(** [Timer::reset], lib/timer/src/lib.rs:220-223 *)
Definition timer_reset (t : timer) : timer := Timer None None.
