(** Property C99: the pings of the client library keep the connection to the broker.
    Every theorem is followed by a concrete case meeting its hypotheses. *)
From Coq Require Import String.
From Verif Require Import Base Codec Str Maps SpecCodec PacketProps Packets SpecPackets Frame FrameFacts Session Server Tac Examples Client Timer
  Properties_Wire Properties_Timer.

(** When the library writes its [n]-th PINGREQ (counting from 1) if it is on time: the event loop started at [start]; tokio's interval
    skips the tick at once (client.rs 227-228) and ticks every [ping_interval] from then on. *)
Definition ping_due (start keep_alive : N) (n : N) : N := start + n * (ping_interval keep_alive * second).

(** ** C99: a broker that has heard of the client when it connected, or of its [n]-th ping, does not end the connection until the next
    ping is late by more than the interval, whatever the interval is, from two seconds on. *)
Theorem C99_pings_keep_connection_partial cfg h c k t0 s start n late t :
  clock_ok h -> live cfg h c k t0 -> interval k s -> 2 <= s ->
  ping_due start s n <= t0 ->
  late < s * second -> t <= ping_due start s (n + 1) + late ->
  tstep cfg (tstate cfg h) (t, TTimer c) = (tstate cfg h, []).
Proof.
  intros Hc H Hk Hs Hd Hl Ht. eapply C50_not_before; eauto. unfold ping_due, ping_interval in *.
  replace (0 <? s) with true in * by (symmetry; apply N.ltb_lt; lia).
  assert (E : s * 3 / 2 = s + s / 2) by (replace (s * 3) with (s + s * 2) by lia; rewrite N.div_add by discriminate; lia).
  assert (1 <= s / 2) by (apply N.div_le_lower_bound; lia).
  rewrite N.max_l in * by lia. rewrite E. unfold second in *. nia.
Qed.
Print Assumptions C99_pings_keep_connection_partial.
(** The same from the CONNECT on: the event loop starts when the CONNACK has arrived, [delay] after the broker started its timer. *)
Theorem C99_first_ping_partial cfg h c k t0 s delay late t :
  clock_ok h -> live cfg h c k t0 -> interval k s -> 2 <= s ->
  delay + late < s * second -> t <= ping_due (t0 + delay) s 1 + late ->
  tstep cfg (tstate cfg h) (t, TTimer c) = (tstate cfg h, []).
Proof.
  intros Hc H Hk Hs Hl Ht. apply (C99_pings_keep_connection_partial cfg h c k t0 s t0 0 (delay + late) t); auto; unfold ping_due in *; lia.
Qed.
Print Assumptions C99_first_ping_partial.
Example C99_ex : live ex_open (ex_history 5) 1 (ex_keepalive "a" 5) (8 * second) /\ clock_ok (ex_history 5)
  /\ interval (ex_keepalive "a" 5) 5 /\ 2 <= 5 /\ ping_due (6 * second) 5 1 <= 8 * second
  /\ ping_due (6 * second) 5 2 + 4 * second = 14 * second
  /\ snd (tstep ex_open (tstate ex_open (ex_history 5)) (14 * second, TTimer 1)) = [].
Proof.
  destruct C50_ex as (H1 & H2 & H3 & H4 & _). split; [exact H1|]. split; [exact H2|]. split; [exact H3|].
  split; [lia|]. split; [vm_compute; discriminate|]. split; [reflexivity|exact H4].
Qed.

(** The library does not ping more than once a second, nor less than once per interval; and its pings are at least twice as
    frequent as it promised, from two seconds on. *)
Theorem C99_ping_rate s : 0 < s -> 1 <= ping_interval s <= s /\ (2 <= s -> 2 * ping_interval s <= s /\ s <= 2 * ping_interval s + 1).
Proof.
  intros H. unfold ping_interval. replace (0 <? s) with true by (symmetry; apply N.ltb_lt; lia).
  pose proof (N.div_mod s 2 ltac:(discriminate)). pose proof (N.mod_lt s 2 ltac:(discriminate)). lia.
Qed.
Print Assumptions C99_ping_rate.
Example C99_rate_ex : ping_interval 60 = 30 /\ ping_interval 3 = 1 /\ ping_interval 1 = 1.
Proof. repeat split. Qed.

(** The full claim is false, because of the defect of C16. Of the pings of an idle client the broker reads the first only, ... *)
Theorem C99_only_first_ping_heard_refuted p before n chunks :
  Forall (fun kb => sent (fst kb) (snd kb) /\ reads V5 (fst kb)) before -> Forall (fun c => c <> []) chunks ->
  concat chunks = concat (map snd before) ++ concat (repeat pingreq_enc (S n)) ->
  exists out, server_reads p [] chunks (map (fun kb => canon (fst kb)) before ++ [PingReq]) out /\ forall k, out <> RPacket k.
Proof.
  intros Hb Hc E. destruct (C16_ping_kills_connection_refuted p before (concat (repeat pingreq_enc n)) chunks Hb Hc E) as (out & H1 & _ & H3).
  exists out. split; assumption.
Qed.
Print Assumptions C99_only_first_ping_heard_refuted.
(** ... and so, however punctual the later ones are, ends the connection one and a half intervals after the first, [t0]. *)
Theorem C99_idle_client_cut_refuted cfg h c k t0 s start t : clock_ok h -> live cfg h c k t0 -> interval k s -> 2 <= s ->
  t0 <= ping_due start s 1 + second -> ping_due start s 4 + 2 * second <= t ->
  exists tw, tstep cfg (tstate cfg h) (t, TTimer c) = (tw, [Closed c]) /\ unserved tw c.
Proof.
  intros Hc H Hk Hs Hd Ht. destruct (tstep cfg (tstate cfg h) (t, TTimer c)) as [tw o] eqn:E.
  destruct (C50_ends cfg h c k t0 s t tw o Hc H Hk) as (_ & -> & Hu); [|exact E|exists tw; auto].
  unfold ping_due, ping_interval in *. replace (0 <? s) with true in * by (symmetry; apply N.ltb_lt; lia).
  assert (1 <= s / 2) by (apply N.div_le_lower_bound; lia). rewrite N.max_l in * by lia.
  assert (s * 3 / 2 <= 3 * (s / 2) + 1).
  { pose proof (N.div_mod s 2 ltac:(discriminate)) as D. pose proof (N.mod_lt s 2 ltac:(discriminate)) as M.
    replace (s * 3) with (s + s * 2) by lia. rewrite N.div_add by discriminate. lia. }
  unfold second in *. nia.
Qed.
Print Assumptions C99_idle_client_cut_refuted.
Example C99_cut_ex : server_reads Release [] [pingreq_enc; pingreq_enc; pingreq_enc] [PingReq] (RError (EReason NormalDisconnection)) /\
  snd (tstep ex_open (tstate ex_open (ex_history 5)) (ping_due (6 * second) 5 4 + 2 * second, TTimer 1)) = [Closed 1%nat].
Proof.
  split; [|vm_compute; reflexivity].
  eapply sreads_packet; [vm_compute; reflexivity|]. eapply sreads_end; [vm_compute; reflexivity|discriminate].
Qed.

(** False for one second: the library pings every second, and the broker has cut the connection when the ping is due. *)
Theorem C99_one_second_refuted : exists h c k t0, clock_ok h /\ live ex_open h c k t0 /\ interval k 1 /\
  snd (tstep ex_open (tstate ex_open h) (ping_due t0 1 1, TTimer c)) = [Closed c].
Proof.
  destruct C50_one_second_refuted as (h & c & k & t0 & t & H1 & H2 & H3 & -> & H5).
  exists h, c, k, t0. split; [exact H1|]. split; [exact H2|]. split; [exact H3|]. exact H5.
Qed.
Print Assumptions C99_one_second_refuted.
(** False for zero, which turns pings off: the broker's task panics at the first request (one second after the machine
    was started, or later). *)
Theorem C99_zero_refuted : ping_interval 0 = 9223372036854775807 /\
  exists h c k t0, live ex_open h c k t0 /\ c_keepalive k = 0 /\
  exists x, snd (tstep ex_open (tstate ex_open h) (8 * second, TEvent (ex_sub c "t"))) = [Sent c (SubAck x); Crashed c].
Proof.
  split; [reflexivity|]. destruct C50_zero_ex as (H1 & _ & H3). eexists _, 1%nat, _, _. split; [exact H1|]. split; [reflexivity|exact H3].
Qed.
Print Assumptions C99_zero_refuted.
