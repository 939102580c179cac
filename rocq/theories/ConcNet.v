(** The broker fed with bytes while the handlers of its connections are interleaved: the tasks of Network.v
    (mercurio-server/src/server.rs 153-190 and 317-352, mercurio-server/src/connection.rs 55-94) with the handlers of Conc.v.

    Simplifications: as in Network.v and Conc.v. A process runs from its start (on any store) to the point where it is
    stopped, so there is no [NRestart]. *)
From Verif Require Import Base Maps Packets Frame Storage Broker Session Server Network Conc.

(** The process: what its handlers do, and for every connection the state of its reader (Network.v). *)
Record bnet := Mk_bnet { bn_conf : conf; bn_tasks : nat -> task }.
(** server.rs 103-112: a process that starts on the store [st]; no bytes have arrived. *)
Definition bnet_on (st : mem_store) : bnet := Mk_bnet (conf_on st) (fun _ => task_new).

(** What happens next: something outside a handler, or the handler of connection [c] makes a step. *)
Inductive bmove :=
| BNet (ev : net_event)
| BGo (c : nat).

(** server.rs 328-432: the loop is left when reading fails and when the timer or the shutdown fires; it is not left when a packet was read. *)
Definition goes_on_reading (t : task) (out : read_out) : phase := match out with RPacket _ => tk_phase t | _ => Over end.
(** server.rs 166-190 and 328: when a handler has returned, the connection is served on if it still has its session. *)
Definition after_handler (w : world) (c : nat) (t : task) : task :=
  Mk_task (match tk_phase t with Over => Over | _ => if is_served w c then Serving else Over end) (tk_buf t) (tk_inbox t).
Definition set_phase (ph : phase) (t : task) : task := Mk_task ph (tk_buf t) (tk_inbox t).
Definition busy (c : nat) (n : bnet) : bool := is_some (aget Nat.eqb c (cn_tasks (bn_conf n))).
(** The handler for event [e] is started. *)
Definition bstart (cfg : config) (n : bnet) (e : event) (ts : nat -> task) : option (bnet * list item) :=
  match mstep cfg (bn_conf n) (MStart e) with Some (x, i) => Some (Mk_bnet x ts, [i]) | None => None end.

(** [None]: not possible now. A connection whose handler is at work is not polled (server.rs 330-432: the branches of
    [select!] run in the same task). *)
Definition bstep (cfg : config) (p : profile) (n : bnet) (m : bmove) : option (bnet * list item) :=
  match m with
  | BNet (NArrive c bs) =>
      let t := bn_tasks n c in
      Some (Mk_bnet (bn_conf n) (put_task c (Mk_task (tk_phase t) (tk_buf t) (tk_inbox t ++ [bs])) (bn_tasks n)), [])
  | BNet (NPoll c u a) =>
      let t := bn_tasks n c in
      if busy c n then None
      else
        match tk_phase t with
        | Over => None
        | ph =>
            let '(r, b, cs) := poll_read p (tk_buf t) (tk_inbox t) in
            match r with
            | None => Some (Mk_bnet (bn_conf n) (put_task c (Mk_task ph b cs) (bn_tasks n)), [])
            | Some out =>
                bstart cfg n (match ph with Waiting => first_event c out u a | _ => next_event c out end)
                  (put_task c (Mk_task (goes_on_reading t out) b cs) (bn_tasks n))
            end
        end
  | BNet (NOut c f) =>
      match tk_phase (bn_tasks n c) with Serving => bstart cfg n (EOut c f) (bn_tasks n) | _ => None end
  | BNet (NEnd c) =>
      match tk_phase (bn_tasks n c) with
      | Serving => bstart cfg n (EEnd c) (put_task c (set_phase Over (bn_tasks n c)) (bn_tasks n))
      | _ => None
      end
  | BNet NRestart => None
  | BGo c =>
      match mstep cfg (bn_conf n) (MGo c) with
      | None => None
      | Some (x, i) =>
          Some (Mk_bnet x (match i with
                           | IEnd _ => put_task c (after_handler (cn_world x) c (bn_tasks n c)) (bn_tasks n)
                           | _ => bn_tasks n
                           end), [i])
      end
  end.
(** [bruns cfg p n ms tr n']: the moves [ms], with the trace [tr] of handlers, lead from [n] to [n']. *)
Inductive bruns (cfg : config) (p : profile) : bnet -> list bmove -> list item -> bnet -> Prop :=
| br_nil n : bruns cfg p n [] [] n
| br_cons n m n1 is ms tr n2 : bstep cfg p n m = Some (n1, is) -> bruns cfg p n1 ms tr n2 -> bruns cfg p n (m :: ms) (is ++ tr) n2.
