(** Model of the waiting for locks in mercurio-server/src/session_manager.rs and session.rs:
    which task holds the mutex of the session manager and the mutex of each session, and where
    each connection's task is. What the tasks compute is in Server.v. The mutexes are tokio's;
    any waiting task may get a free mutex (tokio serves them in order: one of these choices).
    The locks inside the broker, the store and the connection are held for a bounded
    computation only and are not modelled; a write to the network is assumed to complete. *)
From Verif Require Import Base Maps.

(** Where the task of a connection is. [n]: session locks it still takes, and gives back at once,
    before anything else. *)
Inductive phase :=
| Wants (id : nat) (clean : bool)   (* session_manager.rs 89: waits for the manager's lock, to serve the CONNECT *)
| Starts (s n : nat)                (* session_manager.rs 90-173: has the manager's lock; session [s] *)
| Works (s n : nat)                 (* server.rs 268-300, 332-394, 396-420: handles something; with n = 0 at the select! *)
| Listens (s : nat)                 (* server.rs 396: session.rs 593-595, has the session's lock, waits for a message *)
| Idles (s : nat)                   (* server.rs 396: no subscription, the branch is disabled *)
| Ends (s n : nat)                  (* server.rs 303-312 *)
| Gone.

Record locks := Mk_locks {
  lk_manager : option nat;          (* who holds the manager's lock *)
  lk_holder : nat -> option nat;    (* who holds the lock of a session *)
  lk_subscribed : nat -> bool;      (* whether a session has a subscription *)
  lk_sessions : nat -> option nat;  (* the manager's map: identifier to session *)
  lk_next : nat;                    (* the next new session *)
  lk_tasks : list (nat * phase)
}.
Definition locks_new : locks := Mk_locks None (fun _ => None) (fun _ => false) (fun _ => None) 0 [].
Definition upd {A} (f : nat -> A) (k : nat) (v : A) : nat -> A := fun x => if Nat.eqb x k then v else f x.
Definition task (l : locks) (c : nat) : option phase := aget Nat.eqb c (lk_tasks l).
Definition set_task (c : nat) (p : phase) (l : locks) : locks :=
  Mk_locks (lk_manager l) (lk_holder l) (lk_subscribed l) (lk_sessions l) (lk_next l) (aput Nat.eqb c p (lk_tasks l)).
Definition set_manager_lock (m : option nat) (l : locks) : locks :=
  Mk_locks m (lk_holder l) (lk_subscribed l) (lk_sessions l) (lk_next l) (lk_tasks l).
Definition set_holder (s : nat) (h : option nat) (l : locks) : locks :=
  Mk_locks (lk_manager l) (upd (lk_holder l) s h) (lk_subscribed l) (lk_sessions l) (lk_next l) (lk_tasks l).
Definition set_subscribed (s : nat) (b : bool) (l : locks) : locks :=
  Mk_locks (lk_manager l) (lk_holder l) (upd (lk_subscribed l) s b) (lk_sessions l) (lk_next l) (lk_tasks l).
Definition new_session (id : nat) (l : locks) : locks :=
  Mk_locks (lk_manager l) (lk_holder l) (upd (lk_subscribed l) (lk_next l) false) (upd (lk_sessions l) id (Some (lk_next l)))
           (S (lk_next l)) (lk_tasks l).

Inductive move :=
(* from outside *)
| MConnect (c id : nat) (clean : bool)            (* a CONNECT arrives *)
| MInput (c n : nat) (subscribed : bool)          (* connection [c] gets a packet from its client, or a message for it *)
| MOver (c : nat)                                 (* end of stream, DISCONNECT, timer, shutdown *)
(* inside the broker *)
| MTake (c : nat)                                 (* the task gets the manager's lock *)
| MPass (c : nat)                                 (* takes and releases the session's lock *)
| MStarted (c n : nat) (restored : bool)          (* releases the manager's lock; goes on to restore what was stored *)
| MListen (c : nat).                              (* polls process_outgoing *)

(** The session's lock is free. *)
Definition free (s : nat) (l : locks) : bool := negb (is_some (lk_holder l s)).

(** [None]: the move is not possible now. *)
Definition lstep (l : locks) (m : move) : option locks :=
  match m with
  | MConnect c id clean =>
      match task l c with
      | None => Some (set_task c (Wants id clean) l)
      | Some _ => None
      end
  | MTake c =>
      match task l c, lk_manager l with
      | Some (Wants id clean), None =>
          let l := set_manager_lock (Some c) l in
          (* session_manager.rs 95-97 and 138-148: after a clean start the entry is vacant *)
          match (if clean then None else lk_sessions l id) with
          | Some s => Some (set_task c (Starts s 4) l)  (* lines 141, 150, 152, 163 *)
          | None => Some (set_task c (Starts (lk_next l) 3) (new_session id l))
          end
      | _, _ => None
      end
  | MPass c =>
      match task l c with
      | Some (Starts s (S n)) => if free s l then Some (set_task c (Starts s n) l) else None
      | Some (Works s (S n)) => if free s l then Some (set_task c (Works s n) l) else None
      | Some (Ends s (S n)) => if free s l then Some (set_task c (Ends s n) l) else None
      | Some (Ends s O) => Some (set_task c Gone l)
      | _ => None
      end
  | MStarted c n restored =>
      match task l c with
      | Some (Starts s O) =>
          (* server.rs 270-279: up to two session locks, if there are subscriptions and a will to
             restore. The subscriptions count at once here; the session's task is busy until then. *)
          if (n <=? 2)%nat
          then Some (set_task c (Works s n) (set_subscribed s (orb restored (lk_subscribed l s)) (set_manager_lock None l)))
          else None
      | _ => None
      end
  | MListen c =>
      match task l c with
      | Some (Works s O) =>
          if free s l
          then if lk_subscribed l s
               then Some (set_task c (Listens s) (set_holder s (Some c) l))
               else Some (set_task c (Idles s) l)
          else None
      | _ => None
      end
  | MInput c n b =>
      match task l c with
      | Some (Works s O) | Some (Idles s) => Some (set_task c (Works s n) (set_subscribed s b l))
      | Some (Listens s) => Some (set_task c (Works s n) (set_subscribed s b (set_holder s None l)))
      | _ => None
      end
  | MOver c =>
      match task l c with
      | Some (Works s O) | Some (Idles s) => Some (set_task c (Ends s 2) l)
      | Some (Listens s) => Some (set_task c (Ends s 2) (set_holder s None l))
      | _ => None
      end
  end.
Fixpoint lrun (ms : list move) (l : locks) : option locks :=
  match ms with
  | [] => Some l
  | m :: ms => match lstep l m with Some l => lrun ms l | None => None end
  end.
