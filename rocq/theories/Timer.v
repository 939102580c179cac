(** Model of the keep-alive timer of mercurio-server/src/server.rs 315-326, 392 and 423-432,
    on top of Server.v. Time is the monotonic clock of the machine, in nanoseconds since its
    origin (on Linux: since boot). *)
From Verif Require Import Base Codec Maps Packets Session Server.

Definition second : N := 1000000000.
(** Seconds of [Duration] and [Instant] (Rust standard library): unsigned and signed 64 bits. *)
Definition u64_max : N := two64 - 1.
Definition i64_max : N := two64 / 2 - 1.

(** server.rs 320-324, in seconds *)
Definition timeout_duration (keepalive : N) : N :=
  if keepalive =? 0 then u64_max / 2 else keepalive * 3 / 2.
(** [Instant::checked_add] (Rust standard library on Linux) for a whole number of seconds. *)
Definition checked_add (now secs : N) : option N :=
  if now / second + secs <=? i64_max then Some (now + secs * second) else None.
(** server.rs 326: [tokio::time::sleep], which takes 30 years if the addition overflows. *)
Definition sleep_deadline (now secs : N) : N :=
  match checked_add now secs with
  | Some d => d
  | None => now + 86400 * 365 * 30 * second
  end.
(** server.rs 392: [Instant::now() + timeout_duration], which panics if the addition overflows. *)
Definition reset_deadline (now secs : N) : res N :=
  match checked_add now secs with
  | Some d => Ok d
  | None => Panic
  end.

(** A broker and the timers of the connections: timeout in seconds and deadline. *)
Record timed_world := Mk_timed_world {
  tw_world : world;
  tw_timers : list (nat * (N * N))
}.
Definition timed_world_new : timed_world := Mk_timed_world world_new [].

Inductive timed_event :=
| TEvent (e : event)         (* an event of Server.v other than the timer's *)
| TTimer (c : nat).          (* [select!] looks at the timer of connection [c] *)

(** One event at time [t]; for a packet [t] is when its handling ends (line 392). *)
Definition tstep (cfg : config) (tw : timed_world) (te : N * timed_event) : timed_world * list output :=
  let (t, te) := te in
  let w := tw_world tw in
  match te with
  | TEvent (EFirst c first u a as e) =>
      let '(w', o) := step cfg w e in
      match first, aget Nat.eqb c (w_conns w), aget Nat.eqb c (w_conns w') with
      | Some (Connect k), None, Some _ =>
          let d := timeout_duration (c_keepalive k) in
          (Mk_timed_world w' (aput Nat.eqb c (d, sleep_deadline t d) (tw_timers tw)), o)
      | _, _, _ => (Mk_timed_world w' (tw_timers tw), o)
      end
  | TEvent (EPacket c p as e) =>
      let '(w', o) := step cfg w e in
      match aget Nat.eqb c (w_conns w'), aget Nat.eqb c (tw_timers tw) with
      | Some _, Some (d, _) =>
          match reset_deadline t d with
          | Ok x => (Mk_timed_world w' (aput Nat.eqb c (d, x) (tw_timers tw)), o)
          | _ => (* the task unwinds: [run] does not get to lines 303-312 *)
              (Mk_timed_world (set_conns (adel Nat.eqb c (w_conns w')) w') (tw_timers tw), o ++ [Crashed c])
          end
      | _, _ => (Mk_timed_world w' (tw_timers tw), o)
      end
  | TEvent e =>
      let '(w', o) := step cfg w e in (Mk_timed_world w' (tw_timers tw), o)
  | TTimer c =>
      match aget Nat.eqb c (tw_timers tw) with
      | Some (_, deadline) =>
          if deadline <=? t
          then let '(w', o) := step cfg w (EEnd c) in (Mk_timed_world w' (tw_timers tw), o)
          else (tw, [])
      | None => (tw, [])
      end
  end.

Fixpoint trun (cfg : config) (h : list (N * timed_event)) (tw : timed_world) : timed_world * list output :=
  match h with
  | [] => (tw, [])
  | e :: h =>
      let '(tw, o) := tstep cfg tw e in
      let '(tw, os) := trun cfg h tw in
      (tw, o ++ os)
  end.
