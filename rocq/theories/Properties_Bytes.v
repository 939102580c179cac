(** C106: from the calls of one client library to the application of another, with bytes in between. *)
From Coq Require Import String.
From Verif Require Import Base Utf8 Str Codec SpecCodec Property SpecProperty PacketProps Packets SpecPackets Frame Tac ParseFacts FrameFacts PacketsRoundtrip Maps Topic SpecTopic TopicFacts
  CodecFacts Storage Broker SpecBroker BrokerFacts Session Server SpecServer WorldFacts ServerFacts SessionFacts HandlerFacts DeliveryFacts SpecOutput SpecWire Network SpecNetwork NetworkFacts
  Client SpecClient ClientFacts Examples Properties_Wire Properties_Routing Properties_Auth Properties_Format Properties_Output Properties_Session Properties_Delivery Properties_ClientWire Properties_Network Properties_EndToEnd.

(** ** Vocabulary *)
(** The bytes of a packet. *)
Definition bytes_of (k : packet) : bytes := match packet_enc k with Ok bs => bs | _ => [] end.
(** [bs] are the first bytes of those of the packets [ks]. *)
Definition begins (bs : bytes) (ks : list packet) : Prop := exists rest, bs ++ rest = concat (map bytes_of ks).
Definition publishes (ks : list packet) : list publish_packet := flat_map (fun k => match k with Publish b => [b] | _ => [] end) ks.
(** What the library of one client writes: the CONNECT and what its event loop has written. *)
Definition library_writes (o : connect_options) (outs : list coutput) : list packet := Connect (build_connect o) :: written outs.

(** ** Lemmas *)
Lemma prefix_split {A} (packets : list (A * bytes)) : forall bs rest, Forall (fun kb => snd kb <> []) packets -> bs ++ rest = concat (map snd packets) ->
  exists m pre, bs = concat (map snd (firstn m packets)) ++ pre /\
    (pre = [] \/ exists kb suf, nth_error packets m = Some kb /\ snd kb = pre ++ suf /\ pre <> [] /\ suf <> []).
Proof.
  induction packets as [|[k b] packets IH]; intros bs rest Hne E; cbn [map concat snd] in E.
  - apply app_eq_nil in E. destruct E as [-> _]. exists 0%nat, []. auto.
  - inversion Hne as [|? ? Hb Hne']; subst. cbn [snd] in Hb. apply app_eq_app in E. destruct E as (l & [[-> E]|[-> E]]).
    + destruct (IH l rest Hne' (eq_sym E)) as (m & pre & -> & Hp). exists (S m), pre. cbn [firstn map concat snd nth_error]. rewrite app_assoc. auto.
    + destruct l as [|x l].
      * exists 1%nat, []. cbn. rewrite !app_nil_r. auto.
      * destruct bs as [|y bs]; [exists 0%nat, []; auto|].
        exists 0%nat, (y :: bs). cbn. split; [reflexivity|]. right. exists (k, (y :: bs) ++ x :: l), (x :: l). repeat split; discriminate.
Qed.

Lemma longer {A} (packets : list (A * bytes)) : forall m j kb, nth_error packets m = Some kb -> (m < j)%nat ->
  blen (concat (map snd (firstn m packets))) + blen (snd kb) <= blen (concat (map snd (firstn j packets))).
Proof.
  induction packets as [|x packets IH]; intros m j kb Hn Hj; [destruct m; discriminate|].
  destruct j as [|j]; [lia|]. cbn [firstn map concat]. rewrite (blen_app (snd x)). destruct m as [|m]; cbn [nth_error] in Hn.
  - injection Hn as ->. cbn [firstn map concat]. change (blen (@nil byte)) with 0. lia.
  - cbn [firstn map concat]. rewrite (blen_app (snd x)). specialize (IH m j kb Hn). lia.
Qed.

Definition crosses (kb : packet * bytes) : Prop := sent (fst kb) (snd kb) /\ reads V5 (fst kb).
(** Some of the bytes of packets, in pieces: what is read are the packets that are there in full. *)
Lemma partly_read p packets chunks rest : Forall crosses packets -> Forall (fun c => c <> []) chunks -> concat chunks ++ rest = concat (map snd packets) ->
  exists m out, server_reads p [] chunks (map (fun kb => canon (fst kb)) (firstn m packets)) out /\
    (out = RClosed \/ out = RError (EReason NormalDisconnection)) /\
    (forall j, (j <= length packets)%nat -> blen (concat (map snd (firstn j packets))) <= blen (concat chunks) -> (j <= m)%nat).
Proof.
  intros Hs Hc E. assert (Hne : Forall (fun kb => snd kb <> []) packets).
  { revert Hs. apply Forall_impl. intros kb [(He & _) _]. eapply packet_enc_nonempty, He. }
  destruct (prefix_split packets _ _ Hne E) as (m & pre & Eb & Hp).
  assert (Hf : Forall crosses (firstn m packets)).
  { rewrite <- (firstn_skipn m packets) in Hs. apply Forall_app in Hs. apply Hs. }
  exists m. destruct Hp as [-> | (kb & suf & Hn & Ek & H1 & H2)].
  - rewrite app_nil_r in Eb. eexists. split; [exact (server_framing p _ _ Hf Hc Eb)|]. split; [auto|].
    intros j Hj Hl. rewrite Eb in Hl. destruct (Nat.le_gt_cases j m) as [H|H]; [exact H|]. exfalso.
    destruct (nth_error packets m) as [kb|] eqn:Hn; [|apply nth_error_None in Hn; lia].
    pose proof (longer packets m j kb Hn H). apply nth_error_In in Hn. rewrite Forall_forall in Hne. specialize (Hne _ Hn).
    destruct (snd kb) as [|y l]; [congruence|]. rewrite blen_cons in *. lia.
  - eexists. split; [|split; [right; reflexivity|]].
    + rewrite Forall_forall in Hs. destruct (Hs kb (nth_error_In _ _ Hn)) as [Hk _].
      exact (server_framing_truncated p _ (fst kb) (snd kb) pre suf chunks Hf Hk Ek H1 H2 Hc Eb).
    + intros j Hj Hl. rewrite Eb, blen_app in Hl. destruct (Nat.le_gt_cases j m) as [H|H]; [exact H|]. exfalso.
      pose proof (longer packets m j kb Hn H) as Hx. rewrite Ek, blen_app in Hx. destruct suf as [|y l]; [congruence|]. rewrite blen_cons in *. lia.
Qed.

(** A poll of a connection that is served handles the next packet, if there is one. *)
Lemma poll_next cfg p h c u a ks out : server_reads p [] (arrived c h) ks out -> ~ not_served (nt_world (net_state cfg p h)) c ->
  ks = has_handled cfg p h c \/ exists k, has_handled cfg p (h ++ [NPoll c u a]) c = has_handled cfg p h c ++ [k].
Proof.
  intros Hr Hserved. pose proof (well_run cfg p h c) as Hw. unfold well in Hw. rewrite has_handled_snoc. cbn [net_happens].
  destruct (tk_phase (nt_tasks (net_state cfg p h) c)); try tauto. destruct Hw as [Hw _].
  destruct (poll_read p _ _) as [[[o|] b] cs] eqn:Ep; apply poll_reads in Ep.
  - assert (Hend : forall o', (forall k, o' <> RPacket k) ->
        (exists cs', reads_to p (tk_buf (nt_tasks (net_state cfg p h) c)) (tk_inbox (nt_tasks (net_state cfg p h) c)) [] b cs' /\
         forall more, server_read p b (cs' ++ more) = (o', b, cs ++ more)) -> ks = has_handled cfg p h c).
    { intros o' H1 (cs' & A & B). pose proof (reads_to_trans _ _ _ _ _ _ _ _ _ Hw A) as Ht.
      specialize (B []). rewrite app_nil_r in B. pose proof (reads_to_reads _ _ _ _ _ _ Ht [] o' ltac:(eapply sreads_end; eassumption)) as Hx.
      destruct (server_reads_det _ _ _ _ _ Hr _ _ Hx) as [Hy _]. rewrite !app_nil_r in Hy. exact Hy. }
    destruct o as [k| | |]; [right|left; eapply Hend; [|exact Ep]; discriminate..].
    exists k. cbn. rewrite Nat.eqb_refl. reflexivity.
  - left. destruct Ep as (A & -> & x & B). pose proof (reads_to_trans _ _ _ _ _ _ _ _ _ Hw A) as Ht.
    assert (Hx : server_reads p b [] [] (server_eof b)).
    { eapply sreads_end; [rewrite server_read_step, B; reflexivity|]. destruct b; discriminate. }
    apply (reads_to_reads _ _ _ _ _ _ Ht) in Hx. destruct (server_reads_det _ _ _ _ _ Hr _ _ Hx) as [Hy _]. rewrite !app_nil_r in Hy. exact Hy.
Qed.

(** What the library writes can be read. *)
Lemma written_crosses is c outs k : cruns client_new is c outs -> Forall fair is -> In k (written outs) -> k <> PingReq -> crosses (k, bytes_of k).
Proof.
  intros Hr Hf Hin Hk. induction Hr as [|is c1 outs i c2 out Hr IH Hs]; [destruct Hin|].
  apply Forall_app in Hf. destruct Hf as [Hf Hi]. rewrite written_app in Hin. apply in_app_or in Hin. destruct Hin as [Hin|Hin]; [auto|].
  assert (Hn : cl_next c1 < 65536).
  { rewrite (proj1 (ids_used _ _ _ Hr)). apply N.mod_upper_bound. discriminate. }
  inversion Hi as [|? ? Hfi _]; subst.
  assert (Hw : In (Wrote k) out).
  { unfold written in Hin. apply in_flat_map in Hin. destruct Hin as (x & Hx & Hin). destruct x; cbn in Hin; try tauto. destruct Hin as [->|[]]. exact Hx. }
  destruct (step_written _ _ _ _ _ Hs Hn Hfi Hw) as (H1 & H2 & H3 & bs & H4 & H5).
  unfold crosses. cbn [fst snd]. unfold bytes_of. rewrite H4. split; [split; [exact H4|split; [exact H5|split; [exact H1|]]]|].
  - apply cstep_inv in Hs. inversion Hs; subst; try (apply wrote_outcome in Hw; subst k); try (cbn in Hw; intuition congruence); try exact I; try reflexivity.
    destruct ok; cbn in Hw; [|intuition congruence]. destruct Hw as [E|[]]. injection E as <-. exact I.
  - destruct k; try exact I; cbn in H3 |- *; rewrite H3; reflexivity.
Qed.
Lemma connect_crosses o : options_fit o -> crosses (Connect (build_connect o), bytes_of (Connect (build_connect o))).
Proof.
  intros Ho. destruct (connect_sent o Ho) as (bs & H1 & H2 & H3). unfold crosses, bytes_of. cbn [fst snd]. rewrite H1.
  split; [|exact I]. split; [exact H1|]. split; [exact H2|]. split; [exact H3|exact I].
Qed.
Lemma library_crosses o is c outs : options_fit o -> cruns client_new is c outs -> Forall fair is -> ~ In PingReq (written outs) ->
  Forall crosses (map (fun k => (k, bytes_of k)) (library_writes o outs)).
Proof.
  intros Ho Hr Hf Hp. apply Forall_map. constructor; [apply connect_crosses, Ho|]. apply Forall_forall. intros k Hk.
  eapply written_crosses; eauto. intros ->. contradiction.
Qed.
Lemma paired_bytes ks : map snd (map (fun k => (k, bytes_of k)) ks) = map bytes_of ks.
Proof. rewrite map_map. reflexivity. Qed.
Lemma paired_canon ks : map (fun kb => canon (fst kb)) (map (fun k => (k, bytes_of k)) ks) = map canon ks.
Proof. rewrite map_map. reflexivity. Qed.

(** ** C106 *)
(** One client library, with any calls, ticks and reads, and the broker, fed on this connection with the first bytes the
    library has written, in any pieces and at any times: the broker has handled the first of the packets written, in order,
    each once, as they were written ... *)
Theorem C106_calls_handled cfg p h c o is ca outs :
  options_fit o -> cruns client_new is ca outs -> Forall fair is -> ~ In PingReq (written outs) ->
  Forall (fun x => x <> []) (arrived c h) -> begins (concat (arrived c h)) (library_writes o outs) ->
  exists more, map canon (library_writes o outs) = has_handled cfg p h c ++ more.
Proof.
  intros Ho Hr Hf Hp Hc [rest E]. pose proof (library_crosses o is ca outs Ho Hr Hf Hp) as Hx. rewrite <- paired_bytes in E.
  destruct (partly_read p _ _ _ Hx Hc E) as (m & out & Hs & _ & _).
  destruct (C105_handled_prefix cfg p h c _ _ Hs) as [more Hm]. rewrite firstn_map, paired_canon in Hm.
  exists (more ++ map canon (skipn m (library_writes o outs))). rewrite app_assoc, <- Hm, <- map_app, firstn_skipn. reflexivity.
Qed.
Print Assumptions C106_calls_handled.
(** ... and as long as the connection is served, a poll handles one more, until all that have arrived in full are handled. *)
Theorem C106_arrived_handled cfg p h c o is ca outs u a j :
  options_fit o -> cruns client_new is ca outs -> Forall fair is -> ~ In PingReq (written outs) ->
  Forall (fun x => x <> []) (arrived c h) -> begins (concat (arrived c h)) (library_writes o outs) ->
  ~ not_served (nt_world (net_state cfg p h)) c ->
  (j <= length (library_writes o outs))%nat -> blen (concat (map bytes_of (firstn j (library_writes o outs)))) <= blen (concat (arrived c h)) ->
  (j <= length (has_handled cfg p h c))%nat \/ exists k, has_handled cfg p (h ++ [NPoll c u a]) c = has_handled cfg p h c ++ [k].
Proof.
  intros Ho Hr Hf Hp Hc [rest E] Hserved Hj Hl. pose proof (library_crosses o is ca outs Ho Hr Hf Hp) as Hx. rewrite <- paired_bytes in E.
  destruct (partly_read p _ _ _ Hx Hc E) as (m & out & Hs & _ & Hm).
  destruct (poll_next cfg p h c u a _ _ Hs Hserved) as [H|H]; [left|right; exact H].
  rewrite <- H, map_length, firstn_length, map_length. specialize (Hm j). rewrite map_length, firstn_map, paired_bytes in Hm. specialize (Hm Hj Hl). lia.
Qed.
Print Assumptions C106_arrived_handled.
(** So the broker handles the calls of publish(), in order and as they were made, ... *)
Definition same_request (x : bytes * bytes * qos * bool) (b : publish_packet) : Prop :=
  let '(t, d, q, r) := x in pb_topic b = t /\ pb_payload b = Some d /\ pb_qos b = q /\ pb_retain b = r /\ pb_dup b = false.
Lemma publishes_app a b : publishes (a ++ b) = publishes a ++ publishes b.
Proof. apply flat_map_app. Qed.
Definition canon_publish (b : publish_packet) : publish_packet := match canon (Publish b) with Publish b => b | _ => b end.
Lemma publishes_canon ks : publishes (map canon ks) = map canon_publish (publishes ks).
Proof.
  induction ks as [|k ks IH]; [reflexivity|]. change (map canon (k :: ks)) with ([canon k] ++ map canon ks). change (k :: ks) with ([k] ++ ks).
  rewrite !publishes_app, map_app, IH. destruct k; reflexivity.
Qed.
Theorem C106_publish_calls_handled cfg p h c o is ca outs :
  options_fit o -> cruns client_new is ca outs -> Forall fair is -> healthy is -> cl_alive ca = true -> ~ In PingReq (written outs) ->
  Forall (fun x => x <> []) (arrived c h) -> begins (concat (arrived c h)) (library_writes o outs) ->
  Forall2 same_request (firstn (length (publishes (has_handled cfg p h c))) (publish_calls is)) (publishes (has_handled cfg p h c)).
Proof.
  intros Ho Hr Hf Hh Ha Hp Hc Hb. destruct (C106_calls_handled cfg p h c o is ca outs Ho Hr Hf Hp Hc Hb) as [more Hm].
  assert (Hcf : Forall call_fits (publish_calls is)).
  { apply Forall_forall. intros [[[t d] q] r] Hin. apply in_flat_map in Hin. destruct Hin as (i & Hi & Hin). rewrite Forall_forall in Hf. specialize (Hf _ Hi).
    destruct i as [|[] ok| | |]; cbn in Hin; try tauto. destruct Hin as [E|[]]. inv E. cbn in Hf. unfold call_fits. tauto. }
  pose proof (calls_written is ca outs Hr Hh Ha Hcf) as Hw.
  apply (f_equal publishes) in Hm. rewrite publishes_canon, publishes_app in Hm. change (publishes (library_writes o outs)) with (publishes_written outs) in Hm.
  set (H := publishes (has_handled cfg p h c)) in *. clearbody H. clear - Hw Hm.
  revert H Hm. induction Hw as [|x b xs bs Hx Hw IH]; intros H Hm; cbn [map] in Hm.
  - symmetry in Hm. apply app_eq_nil in Hm. destruct Hm as [-> _]. constructor.
  - destruct H as [|y H]; [constructor|]. cbn [app] in Hm. injection Hm as <- Hm. cbn [length firstn]. constructor; [|auto].
    destruct x as [[[t d] q] r]. destruct Hx as (id & -> & _). repeat split.
Qed.
Print Assumptions C106_publish_calls_handled.
Lemma half_ping p : server_reads p [0xc0] [] [] (RError (EReason NormalDisconnection)).
Proof. eapply sreads_end; [destruct p; vm_compute; reflexivity|discriminate]. Qed.
Lemma half_ping_coming p : server_reads p [] [[0xc0]] [] (RError (EReason NormalDisconnection)).
Proof. eapply sreads_end; [destruct p; vm_compute; reflexivity|discriminate]. Qed.
(** ... but none that follow a ping of the library, whatever arrives: after the keep-alive interval without a call nothing is
    published any more. *)
Theorem C106_after_ping_refuted cfg p h c o is ca outs before after :
  options_fit o -> cruns client_new is ca outs -> Forall fair is -> written outs = before ++ PingReq :: after -> ~ In PingReq before ->
  Forall (fun x => x <> []) (arrived c h) -> begins (concat (arrived c h)) (library_writes o outs) ->
  exists more, map canon (Connect (build_connect o) :: before) ++ [PingReq] = has_handled cfg p h c ++ more.
Proof.
  intros Ho Hr Hf Ew Hb Hc [rest E].
  set (A := map (fun k => (k, bytes_of k)) (Connect (build_connect o) :: before)).
  assert (Hx : Forall crosses A).
  { apply Forall_map. constructor; [apply connect_crosses, Ho|]. apply Forall_forall. intros k Hk.
    eapply written_crosses; eauto; [rewrite Ew; apply in_or_app; auto|]. intros ->. contradiction. }
  assert (EA : map (fun kb => canon (fst kb)) A = map canon (Connect (build_connect o) :: before)) by apply paired_canon.
  assert (Hpre : forall ks out, server_reads p [] (arrived c h) ks out -> (exists more, map canon (Connect (build_connect o) :: before) ++ [PingReq] = ks ++ more) ->
    exists more, map canon (Connect (build_connect o) :: before) ++ [PingReq] = has_handled cfg p h c ++ more).
  { intros ks out Hs [m1 E1]. destruct (C105_handled_prefix cfg p h c _ _ Hs) as [m2 E2]. exists (m2 ++ m1). rewrite E1, E2, app_assoc. reflexivity. }
  unfold library_writes in E. rewrite Ew, (app_comm_cons before), map_app, concat_app in E.
  change (concat (map bytes_of (PingReq :: after))) with (pingreq_enc ++ concat (map bytes_of after)) in E.
  rewrite <- (paired_bytes (_ :: before)) in E. fold A in E. apply app_eq_app in E. destruct E as (l & [[E El]|[E El]]).
  - destruct l as [|x1 [|x2 l]].
    + rewrite app_nil_r in E. apply (Hpre _ _ (server_framing p A _ Hx Hc E)). rewrite EA. eauto.
    + cbn in El. injection El as <- _. destruct (server_reads_prefix p A [0xc0] (arrived c h) [] Hx Hc E) as (b & cs & E1 & E2 & E3).
      eapply Hpre; [apply (E3 [] (RError (EReason NormalDisconnection)))|rewrite app_nil_r, EA; eauto].
      assert (Hcase : (b = [0xc0] /\ cs = []) \/ (b = [] /\ cs = [[0xc0]])).
      { destruct cs as [|[|y ch] cs]; [rewrite app_nil_r in E1; auto|inversion E2; congruence|]. right.
        destruct b as [|z b]; cbn in E1; [|injection E1 as _ E1; destruct b; discriminate]. injection E1 as -> E1. apply app_eq_nil in E1.
        destruct E1 as [-> E1]. destruct cs as [|[|? ?] ?]; [auto|inversion E2 as [|? ? _ E2']; inversion E2'; congruence|discriminate]. }
      destruct Hcase as [[-> ->]|[-> ->]]; [apply half_ping|apply half_ping_coming].
    + cbn in El. injection El as <- <- _. 
      destruct (ping_kills_stream p A l (arrived c h) Hx Hc E) as (out & H & _). apply (Hpre _ _ H). rewrite EA. exists []. rewrite app_nil_r. reflexivity.
  - destruct (partly_read p A (arrived c h) l Hx Hc (eq_sym E)) as (m & out & Hs & _). apply (Hpre _ _ Hs).
    exists (map (fun kb => canon (fst kb)) (skipn m A) ++ [PingReq]). rewrite app_assoc, <- map_app, firstn_skipn, EA. reflexivity.
Qed.
Print Assumptions C106_after_ping_refuted.

(** ** From publish() to recv() *)
Definition packets_sent (c : nat) (o : list output) : list packet := flat_map (fun x => match x with Sent d k => if Nat.eqb d c then [k] else [] | _ => [] end) o.
Definition packets_read (is : list cinput) : list packet := flat_map (fun i => match i with IRead (RPacket k) _ => [k] | _ => [] end) is.

Lemma publishes_sent_packets c o : publishes_sent c o = publishes (packets_sent c o).
Proof.
  induction o as [|x o IH]; [reflexivity|]. unfold publishes_sent, packets_sent in *. cbn [flat_map]. rewrite publishes_app, <- IH. f_equal.
  destruct x as [d k| |]; try reflexivity. destruct (Nat.eqb d c); destruct k; reflexivity.
Qed.
Lemma publishes_read_packets is : map fst (publishes_read is) = publishes (packets_read is).
Proof.
  induction is as [|i is IH]; [reflexivity|]. unfold publishes_read, packets_read in *. cbn [flat_map]. rewrite publishes_app, map_app, <- IH. f_equal.
  destruct i as [[[]| | |]| | | |]; reflexivity.
Qed.
Lemma packets_sent_app c a b : packets_sent c (a ++ b) = packets_sent c a ++ packets_sent c b.
Proof. apply flat_map_app. Qed.

(** A connection that has been served gets no second first packet. *)
Lemma phase_stays cfg p n ev c : tk_phase (nt_tasks n c) <> Waiting ->
  tk_phase (nt_tasks (fst (nstep cfg p n ev)) c) <> Waiting /\ forall k u a, ~ In (EFirst c k u a) (fst (net_happens p n ev)).
Proof.
  intros Hp. unfold nstep. destruct (net_happens p n ev) as [es ts] eqn:E. destruct (run cfg es (nt_world n)) as [w o] eqn:Er. cbn [fst nt_tasks].
  assert (Ht : tk_phase (ts c) <> Waiting).
  { destruct ev as [d bs|d u a|d g|d|]; cbn [net_happens] in E.
    - inv E. unfold put_task. destruct (Nat.eqb c d) eqn:Ed; [apply Nat.eqb_eq in Ed; subst; exact Hp|exact Hp].
    - destruct (tk_phase (nt_tasks n d)) eqn:Ep; try (inv E; exact Hp); destruct (poll_read _ _ _) as [[r b] cs]; inv E; unfold put_task;
        (destruct (Nat.eqb c d) eqn:Ed; [apply Nat.eqb_eq in Ed; subst; cbn; congruence|exact Hp]).
    - destruct (tk_phase (nt_tasks n d)); inv E; exact Hp.
    - destruct (tk_phase (nt_tasks n d)); inv E; exact Hp.
    - inv E. exact Hp. }
  split.
  - destruct es as [|e es]; [exact Ht|]. unfold net_phase. destruct e as [d ? ? ?|d ?|d ?|d|d|];
      try (unfold put_task; destruct (Nat.eqb c d); [cbn; destruct (is_served w d); discriminate|exact Ht]).
    unfold ended. destruct (ts c) as [[] [] []]; cbn in *; congruence.
  - intros k u a Hin. destruct ev as [d bs|d u' a'|d g|d|]; cbn [net_happens] in E.
    + inv E. destruct Hin.
    + destruct (tk_phase (nt_tasks n d)) eqn:Ep; try (inv E; destruct Hin); destruct (poll_read _ _ _) as [[r b] cs]; inv E; destruct r as [out|]; try contradiction; destruct Hin as [Hin|[]].
      * destruct out; cbn in Hin; inv Hin; congruence.
      * destruct out; cbn in Hin; discriminate.
    + destruct (tk_phase (nt_tasks n d)); inv E; try contradiction; destruct Hin as [Hin|[]]; discriminate.
    + destruct (tk_phase (nt_tasks n d)); inv E; try contradiction; destruct Hin as [Hin|[]]; discriminate.
    + inv E. destruct Hin as [Hin|[]]; discriminate.
Qed.
Lemma no_second_first cfg p h : forall n c, tk_phase (nt_tasks n c) <> Waiting -> forall e, In e (nhistory cfg p h n) -> ~ first_on c e.
Proof.
  induction h as [|ev h IH]; intros n c Hp e He; [destruct He|]. cbn [nhistory] in He. destruct (phase_stays cfg p n ev c Hp) as [H1 H2].
  apply in_app_or in He. destruct He as [He|He]; [|eapply IH; eauto]. intros (k & u & a & ->). eapply H2, He.
Qed.
Lemma publishes_handled a es : (forall e, In e es -> ~ first_on a e) -> publishes_from a es = publishes (handled a es).
Proof.
  induction es as [|e es IH]; intros H; [reflexivity|]. rewrite publishes_from_cons. change (e :: es) with ([e] ++ es). rewrite handled_app, publishes_app, <- IH.
  2:{ intros e' He'. apply H. right. exact He'. }
  f_equal. destruct e as [d [k|] u x|d k|d g|d|d|]; try reflexivity; cbn [handled publishes_from flat_map].
  - destruct (Nat.eqb d a) eqn:E; [|reflexivity]. exfalso. apply Nat.eqb_eq in E. subst d. eapply (H _ (or_introl eq_refl)). exists (Some k), u, x. reflexivity.
  - destruct (Nat.eqb d a); destruct k; reflexivity.
Qed.
Lemma crosses_carried b : crosses (Publish b, bytes_of (Publish b)) -> carried V5 (Publish b) (Publish (canon_publish b)).
Proof.
  intros [(H1 & H2 & H3 & H4) H5]. cbn [fst snd] in *. exists (bytes_of (Publish b)). split; [exact H1|]. intros p rest.
  exact (C08_packets_round_trip_partial p V5 _ _ rest H1 H2 H3 H4 H5).
Qed.
Lemma publish_wrote is c outs b : cruns client_new is c outs -> Forall fair is -> In b (publishes_written outs) -> carried V5 (Publish b) (Publish (canon_publish b)).
Proof.
  intros Hr Hf Hin. apply crosses_carried. eapply written_crosses; [exact Hr|exact Hf| |discriminate]. unfold publishes_written in Hin. apply in_flat_map in Hin.
  destruct Hin as (k & Hk & Hin). destruct k; cbn in Hin; try tauto. destruct Hin as [->|[]]. exact Hk.
Qed.
(** Part of the packets sent, read by the other side. *)
Lemma prefix_conveyed v n xs P R Q : map canon_publish xs = P ++ R ++ Q -> n = length P -> (forall b, In b xs -> carried v (Publish b) (Publish (canon_publish b))) ->
  conveyed v (skipn n xs) R.
Proof.
  intros E -> H. exists (length R).
  assert (E1 : map canon_publish (firstn (length R) (skipn (length P) xs)) = R).
  { rewrite <- firstn_map, <- skipn_map, E, skipn_app, skipn_all, Nat.sub_diag. cbn [skipn app]. rewrite firstn_app, firstn_all, Nat.sub_diag. cbn. apply app_nil_r. }
  assert (H1 : forall b, In b (firstn (length R) (skipn (length P) xs)) -> carried v (Publish b) (Publish (canon_publish b))).
  { intros b Hb. apply H. rewrite <- (firstn_skipn (length P) xs). apply in_or_app. right. rewrite <- (firstn_skipn (length R) (skipn _ xs)). apply in_or_app. auto. }
  clear E H. rewrite <- E1 at 2. clear E1. induction (firstn (length R) (skipn (length P) xs)) as [|b l IH]; [constructor|].
  cbn [map]. constructor; [apply H1; left; reflexivity|apply IH; intros b' Hb'; apply H1; right; exact Hb'].
Qed.
Lemma has_handled_app cfg p h h' c : has_handled cfg p (h ++ h') c = has_handled cfg p h c ++ handled c (nhistory cfg p h' (net_state cfg p h)).
Proof. unfold has_handled. rewrite nhistory_app, handled_app. reflexivity. Qed.
Lemma net_outputs_app cfg p h h' : net_outputs cfg p (h ++ h') = net_outputs cfg p h ++ snd (nrun cfg p h' (net_state cfg p h)).
Proof. unfold net_outputs, net_state. rewrite nrun_app. destruct (nrun cfg p h network_new) as [n o]. cbn. destruct (nrun cfg p h' n). reflexivity. Qed.
Lemma net_state_app cfg p h h' : net_state cfg p (h ++ h') = fst (nrun cfg p h' (net_state cfg p h)).
Proof. unfold net_state. rewrite nrun_app. destruct (nrun cfg p h network_new) as [n o]. cbn. destruct (nrun cfg p h' n). reflexivity. Qed.

Lemma client_reads_det p v b cs ks out : client_reads p v b cs ks out -> forall ks' out', client_reads p v b cs ks' out' -> ks = ks' /\ out = out'.
Proof.
  induction 1 as [b cs out b' cs' E Hk|b cs k b' cs' ks out E H IH]; intros ks' out' H'; inversion H' as [? ? ? ? ? E' Hk'|? ? k' ? ? ? ? E' H'']; subst;
    rewrite E in E'; inversion E'; subst.
  - auto.
  - exfalso. eapply Hk. reflexivity.
  - exfalso. eapply Hk'. reflexivity.
  - destruct (IH _ _ H'') as [-> ->]. auto.
Qed.
(** C72 over bytes: the publisher's calls, the bytes its library writes, their arrival in pieces of any size, the broker, the bytes it
    sends and the subscriber's library, up to what its application is told. What is missing is what is missing in C72 - the application
    is told the filter instead of the topic, a subscriber that lags more than 16 messages behind loses some, QoS 2 - and that the
    publisher sends no ping (C106_after_ping_refuted) and each read of the subscriber ends between two packets (C17). *)
Theorem C106_publish_to_recv_partial cfg p pc v h0 c u x ts h1 i s0 sp id f a t oa isa ca outsa isb cb outsb hello groups later unread out :
  let w0 := nt_world (net_state cfg p h0) in
  let w := nt_world (net_state cfg p (h0 ++ [NPoll c u x])) in
  let h := h0 ++ NPoll c u x :: h1 in
  let es := nhistory cfg p h1 (net_state cfg p (h0 ++ [NPoll c u x])) in
  (* the subscription: connection c is polled and its SUBSCRIBE is complete *)
  serves w0 c i s0 -> net_happens p (net_state cfg p h0) (NPoll c u x) = ([EPacket c (Subscribe sp)], ts) ->
  Forall (fun fo => utf8 (fst fo)) (sb_payload sp) -> In f (map fst (sb_payload sp)) -> topic_filter f ->
  unshared w c i id -> (forall e, In e es -> quiet c id f e) ->
  (forall s st, serves w c i s -> subscription s f st -> keeps_up cfg w c f st es) ->
  (* the publisher: the broker has got the first bytes its library has written, in any pieces *)
  options_fit oa -> cruns client_new isa ca outsa -> Forall fair isa -> healthy isa -> cl_alive ca = true -> ~ In PingReq (written outsa) ->
  Forall (fun y => y <> []) (arrived a h) -> begins (concat (arrived a h)) (library_writes oa outsa) ->
  ~ not_served w a -> ~ not_served (nt_world (net_state cfg p h)) a ->
  topic_name t -> matches f t ->
  (* the subscriber: its library has got the first packets the broker has sent, one or more at a time *)
  cruns client_new isb cb outsb -> healthy isb -> ~ In IDrop isb ->
  Forall (fun k => client_sent k (bytes_of k) /\ reads v k) (packets_sent c (net_outputs cfg p h)) ->
  packets_sent c (net_outputs cfg p h) = ConnAck hello :: concat groups ++ later -> Forall (fun g => g <> []) groups ->
  client_reads pc v [] (map (fun g => concat (map bytes_of g)) groups) (packets_read isb ++ unread) out ->
  let na := length (publishes (has_handled cfg p h0 a)) in
  let nb := length (publishes_sent c (net_outputs cfg p h0)) in
  let published := skipn na (firstn (length (publishes (has_handled cfg p h a))) (publish_calls isa)) in
  let heard := filter (told_on f) (skipn nb (messages (told cb outsb))) in
  let due := map (as_told f) (mem_get_retained f (w_store w0) ++ skipn (length (sent_to w0 f)) (sent_to (nt_world (net_state cfg p h)) f)) in
  heard = firstn (length heard) due /\ subseq (map (call_told f) (filter (call_on t) published)) due.
Proof.
  intros w0 w h es Hs0 Hpoll Hu Hin Hf U Hq Hk Ho Ra Hfa Hha Haa Hpa Hca Hba Hsw Hsh Ht Hm Rb Hhb Hdb Hsent Esent Hg Hreads na nb published heard due.
  assert (Hstep : exists o, step cfg w0 (EPacket c (Subscribe sp)) = (w, o) /\ snd (nstep cfg p (net_state cfg p h0) (NPoll c u x)) = o).
  { unfold w. rewrite net_state_snoc. unfold nstep. rewrite Hpoll, run_one. fold w0. destruct (step cfg w0 (EPacket c (Subscribe sp))) as [w1 o1]. exists o1. auto. }
  destruct Hstep as (o & Hstep & Eo).
  assert (Eh : h = (h0 ++ [NPoll c u x]) ++ h1) by (unfold h; rewrite <- app_assoc; reflexivity).
  assert (Hrun : run cfg es w = (nt_world (net_state cfg p h), snd (nrun cfg p h1 (net_state cfg p (h0 ++ [NPoll c u x]))))).
  { rewrite Eh, net_state_app. unfold es, w. apply injective_projections; cbn [fst snd]; symmetry; apply nrun_run. }
  assert (Hph : tk_phase (nt_tasks (net_state cfg p (h0 ++ [NPoll c u x])) a) <> Waiting).
  { pose proof (well_run cfg p (h0 ++ [NPoll c u x]) a) as Hw. unfold well in Hw. fold w in Hw. intros E. rewrite E in Hw. tauto. }
  pose proof (no_second_first cfg p h1 _ a Hph) as Hfirst. fold es in Hfirst.
  (* what the publisher wrote and the broker read *)
  destruct (C106_calls_handled cfg p h a oa isa ca outsa Ho Ra Hfa Hpa Hca Hba) as [more Ha].
  apply (f_equal publishes) in Ha. rewrite publishes_canon, publishes_app in Ha. change (publishes (library_writes oa outsa)) with (publishes_written outsa) in Ha.
  assert (Ea : publishes (has_handled cfg p h a) = publishes (has_handled cfg p h0 a) ++ publishes_from a es).
  { rewrite Eh, has_handled_app, publishes_app, has_handled_snoc, Hpoll. fold es. cbn [fst handled].
    rewrite (publishes_handled a es Hfirst). f_equal. destruct (Nat.eqb c a); rewrite ?app_nil_r, ?publishes_app; [|reflexivity]. cbn. apply app_nil_r. }
  rewrite Ea, <- app_assoc in Ha.
  pose proof (prefix_conveyed V5 na _ _ _ _ Ha eq_refl (fun b Hb => publish_wrote _ _ _ b Ra Hfa Hb)) as Hca'.
  assert (Hcf : Forall call_fits (publish_calls isa)).
  { apply Forall_forall. intros [[[t' d] q] r] Hi. apply in_flat_map in Hi. destruct Hi as (j & Hj & Hi). rewrite Forall_forall in Hfa. specialize (Hfa _ Hj).
    destruct j as [|[] ok| | |]; cbn in Hi; try tauto. destruct Hi as [E|[]]. inv E. cbn in Hfa. unfold call_fits. tauto. }
  (* what the broker sent and the subscriber read *)
  destruct (C31_suback_mirrors_subscribe cfg w0 c i s0 sp w o Hs0 Hu Hstep) as (s & codes & Ho' & _).
  assert (Eps : publishes_sent c (net_outputs cfg p h) = publishes_sent c (net_outputs cfg p h0) ++ publishes_sent c (snd (run cfg es w))).
  { rewrite Eh, net_outputs_app, net_outputs_snoc, Eo, !publishes_sent_packets, !packets_sent_app, !publishes_app, Hrun. cbn [snd]. rewrite Ho'.
    cbn [packets_sent flat_map]. rewrite Nat.eqb_refl. cbn [app publishes flat_map]. rewrite app_nil_r. reflexivity. }
  assert (Hsb : Forall sendable (publishes_sent c (net_outputs cfg p h)) /\
      forall b, In b (publishes_sent c (net_outputs cfg p h)) -> carried v (Publish b) (Publish (canon_publish b))).
  { assert (Hall : forall b, In b (publishes_sent c (net_outputs cfg p h)) -> client_sent (Publish b) (bytes_of (Publish b))).
    { intros b Hb. rewrite publishes_sent_packets in Hb. apply in_flat_map in Hb. destruct Hb as (k & Hk' & Hb). rewrite Forall_forall in Hsent.
      destruct k; cbn in Hb; try tauto. destruct Hb as [->|[]]. apply (Hsent _ Hk'). }
    split.
    - apply Forall_forall. intros b Hb. destruct (Hall b Hb) as (H1 & H2 & H3 & _). split; [exact H3|]. intros bs Hbs. congruence.
    - intros b Hb. destruct (Hall b Hb) as (H1 & H2 & H3 & _). eexists. split; [exact H1|]. intros p' rest.
      exact (C08_packets_round_trip_partial p' v _ _ rest H1 H2 H3 I I). }
  destruct Hsb as [Hsend Hcar].
  assert (Hcb : conveyed v (publishes_sent c (snd (run cfg es w))) (map fst (skipn nb (publishes_read isb)))).
  { pose proof (C17_client_framing_partial pc v (map (map (fun k => (k, bytes_of k))) groups)) as Hc17.
    rewrite <- concat_map, map_map, map_map in Hc17. cbn [fst] in Hc17.
    rewrite (map_ext _ (fun g => concat (map bytes_of g))) in Hc17 by (intros g; rewrite paired_bytes; reflexivity).
    assert (H1 : Forall (fun kb => client_sent (fst kb) (snd kb) /\ reads v (fst kb)) (map (fun k => (k, bytes_of k)) (concat groups))).
    { apply Forall_map. cbn [fst snd]. rewrite Esent in Hsent. inversion Hsent as [|? ? _ Hs]; subst. apply Forall_app in Hs. apply Hs. }
    specialize (Hc17 H1). clear H1.
    assert (H2 : Forall (fun g => g <> []) (map (map (fun k => (k, bytes_of k))) groups)).
    { apply Forall_map. revert Hg. apply Forall_impl. intros [|k g] Hn; [congruence|discriminate]. }
    specialize (Hc17 H2). clear H2. destruct (client_reads_det _ _ _ _ _ _ Hreads _ _ Hc17) as [Er _]. clear Hc17.
    rewrite <- skipn_map, publishes_read_packets.
    apply (f_equal publishes) in Er. rewrite publishes_app in Er. change (map (fun x => canon x) (concat groups)) with (map canon (concat groups)) in Er. rewrite publishes_canon in Er.
    pose proof Eps as Eps'. rewrite publishes_sent_packets, Esent in Eps'. change (ConnAck hello :: concat groups ++ later) with ([ConnAck hello] ++ concat groups ++ later) in Eps'.
    rewrite !publishes_app in Eps'. change (publishes [ConnAck hello]) with (@nil publish_packet) in Eps'. cbn [app] in Eps'.
    apply (f_equal (map canon_publish)) in Eps'. rewrite !map_app, <- Er in Eps'.
    apply (f_equal (skipn nb)) in Eps'.
    assert (Hsk : forall l : list publish_packet, skipn nb (map canon_publish (publishes_sent c (net_outputs cfg p h0)) ++ l) = l).
    { intros l. rewrite skipn_app, map_length. fold nb. rewrite Nat.sub_diag, skipn_all2 by (rewrite map_length; apply le_n). reflexivity. }
    rewrite Hsk, <- !app_assoc, skipn_app in Eps'.
    refine (prefix_conveyed v 0 _ [] _ _ (eq_sym Eps') eq_refl _). intros b Hb. apply Hcar. rewrite Eps. apply in_or_app. auto. }
  assert (Hreach : reachable cfg w0).
  { exists (nhistory cfg p h0 network_new). unfold w0. rewrite net_state_run. reflexivity. }
  rewrite Eps in Hsend. apply Forall_app in Hsend. destruct Hsend as [_ Hsend].
  assert (Hsh' : ~ not_served (fst (run cfg es w)) a) by (rewrite Hrun; exact Hsh).
  pose proof (C72_publish_to_recv_partial cfg w0 c i s0 sp w o id f es a t v isa ca outsa na isb cb outsb nb Hreach Hs0 Hu Hin Hf Hstep U Hq Hk Ra Hha Haa Hcf
    Hfirst Hsh' Hca' Ht Hm Rb Hhb Hdb Hsend Hcb) as H. cbv zeta in H.
  assert (Epub : published = firstn (length (publishes_from a es)) (skipn na (publish_calls isa))).
  { unfold published. rewrite Ea, app_length, firstn_skipn_comm. reflexivity. }
  rewrite Epub. unfold due, heard. rewrite Hrun in H. exact H.
Qed.
Print Assumptions C106_publish_to_recv_partial.
(** A concrete case: client "b" subscribes to x/+ on connection 1; client "a" publishes three messages on x/y on connection 2, its bytes
    arrive in pieces of five, and the last of them are still under way. *)
Definition bx_options : connect_options := Mk_connect_options (Some (str "a")) None None 60 true None V5.
Definition bx_call (d : string) (q : qos) : cinput := ICommand (CmdPublish (str "x/y") (str d) q false) true.
Definition bx_calls : list cinput := [bx_call "v" AtLeastOnce; bx_call "w" AtMostOnce; bx_call "z" AtMostOnce].
Definition bx_outs : list coutput := match crun client_new bx_calls with Some (_, outs) => outs | None => [] end.
Definition bx_client (is : list cinput) : client := match crun client_new is with Some (c, _) => c | None => client_new end.
Definition bx_stream : bytes := concat (map bytes_of (library_writes bx_options bx_outs)).
Fixpoint in_fives (n : nat) (bs : bytes) : list bytes := match n, bs with S n, _ :: _ => firstn 5 bs :: in_fives n (skipn 5 bs) | _, _ => [] end.
Definition bx_sub : subscribe_packet := Mk_subscribe_packet 7 None [(str "x/+", ex_options)].
Definition bx_before : list net_event :=
  NArrive 1 (bytes_of (Connect (ex_connect "b" true)) ++ bytes_of (Subscribe bx_sub)) :: NPoll 1 (str "u") true ::
  map (NArrive 2) (firstn 4 (in_fives 100 bx_stream)) ++ [NPoll 2 (str "u") true].
Definition bx_after : list net_event :=
  flat_map (fun x => [NArrive 2 x; NPoll 2 [] true]) (firstn 4 (skipn 4 (in_fives 100 bx_stream))) ++ [NOut 1 (str "x/+"); NOut 1 (str "x/+"); NPoll 2 [] true].
Definition bx_all : list net_event := bx_before ++ NPoll 1 [] true :: bx_after.
Definition bx_state (h : list net_event) : network := net_state ex_open Release h.
Definition bx_world : world := nt_world (bx_state (bx_before ++ [NPoll 1 [] true])).
Definition bx_events : list event := nhistory ex_open Release bx_after (bx_state (bx_before ++ [NPoll 1 [] true])).
Definition bx_suback : packet := SubAck (Mk_suback_packet V5 7 None [GrantedQoS0]).
Definition bx_groups : list (list packet) :=
  [[bx_suback]; [Publish (Examples.ex_publish AtLeastOnce (Some 1) false "x/+" "v"); Publish (Examples.ex_publish AtMostOnce None false "x/+" "w")]].
Definition bx_hello : connack_packet := Mk_connack_packet V5 false Success None.
Definition bx_reads : list cinput := map (fun k => IRead (RPacket (canon k)) true) (concat bx_groups).

Lemma bx_fair : Forall fair bx_calls.
Proof. repeat constructor; try (apply e2e_str; vm_compute; reflexivity); try (apply bytes_by; reflexivity); try discriminate; vm_compute; discriminate. Qed.
Lemma bx_options_fit : options_fit bx_options.
Proof. split; [apply e2e_str; vm_compute; reflexivity|]. repeat split. Qed.
Lemma bx_arrived : Forall (fun y => y <> []) (arrived 2 bx_all).
Proof. apply Forall_forall. intros y Hy. assert (E : forallb (fun y => negb (is_nil y)) (arrived 2 bx_all) = true) by (vm_compute; reflexivity).
  rewrite forallb_forall in E. specialize (E y Hy). destruct y; discriminate. Qed.
Lemma bx_begins : begins (concat (arrived 2 bx_all)) (library_writes bx_options bx_outs).
Proof. exists (skipn 40 bx_stream). vm_compute. reflexivity. Qed.
Lemma bx_healthy : healthy bx_calls.
Proof. intros j [<-|[<-|[<-|[]]]]; reflexivity. Qed.
Lemma bx_no_ping : ~ In PingReq (written bx_outs).
Proof. vm_compute. intros H. repeat (destruct H as [H|H]; [discriminate|]). exact H. Qed.
Lemma bx_served : ~ not_served (nt_world (bx_state bx_all)) 2.
Proof. vm_compute. discriminate. Qed.
(** The publisher's side: two of the three calls have been handled, in order, although the boundaries of the pieces are not those of
    the packets; nine bytes of the third are missing. *)
Example C106_ex : options_fit bx_options /\ cruns client_new bx_calls (bx_client bx_calls) bx_outs /\ Forall fair bx_calls /\ healthy bx_calls /\
  cl_alive (bx_client bx_calls) = true /\ ~ In PingReq (written bx_outs) /\ Forall (fun y => y <> []) (arrived 2 bx_all) /\
  begins (concat (arrived 2 bx_all)) (library_writes bx_options bx_outs) /\ ~ not_served (nt_world (bx_state bx_all)) 2 /\
  map blen (arrived 2 bx_all) = [5; 5; 5; 5; 5; 5; 5; 5] /\ map blen (map bytes_of (library_writes bx_options bx_outs)) = [16; 11; 9; 9] /\
  map (fun b => (pb_topic b, pb_payload b)) (publishes (has_handled ex_open Release bx_all 2)) = [(str "x/y", Some (str "v")); (str "x/y", Some (str "w"))].
Proof.
  split; [exact bx_options_fit|]. split; [apply crun_sound; vm_compute; reflexivity|]. split; [exact bx_fair|]. split; [exact bx_healthy|].
  split; [reflexivity|]. split; [exact bx_no_ping|]. split; [exact bx_arrived|]. split; [exact bx_begins|]. split; [exact bx_served|].
  split; [vm_compute; reflexivity|]. split; vm_compute; reflexivity.
Qed.
(** A ping between two calls: the second is never handled, although all bytes have arrived. *)
Definition bx_ping_calls : list cinput := [bx_call "v" AtLeastOnce; ITick true; bx_call "w" AtMostOnce].
Definition bx_ping_outs : list coutput := match crun client_new bx_ping_calls with Some (_, outs) => outs | None => [] end.
Definition bx_ping_all : list net_event :=
  NArrive 2 (concat (map bytes_of (library_writes bx_options bx_ping_outs))) :: repeat (NPoll 2 (str "u") true) 10.
Example C106_after_ping_ex : cruns client_new bx_ping_calls (bx_client bx_ping_calls) bx_ping_outs /\ Forall fair bx_ping_calls /\
  (exists b1 b2, written bx_ping_outs = [Publish b1] ++ PingReq :: [Publish b2]) /\ Forall (fun y => y <> []) (arrived 2 bx_ping_all) /\
  begins (concat (arrived 2 bx_ping_all)) (library_writes bx_options bx_ping_outs) /\
  map pb_payload (publishes (has_handled ex_open Release bx_ping_all 2)) = [Some (str "v")].
Proof.
  split; [apply crun_sound; vm_compute; reflexivity|]. split; [pose proof bx_fair as H; inversion H as [|? ? H1 H2]; inversion H2; constructor; [assumption|constructor; [exact I|constructor; [assumption|constructor]]]|].
  split; [do 2 eexists; vm_compute; reflexivity|]. split; [constructor; [vm_compute; discriminate|constructor]|].
  split; [exists []; rewrite app_nil_r; vm_compute; reflexivity|vm_compute; reflexivity].
Qed.
(** Both sides. *)
Lemma bx_quiet : forall e, In e bx_events -> quiet 1 (str "b") (str "x/+") e.
Proof.
  assert (E : forallb (fun e => match e with EPacket 2 (Publish _) | EOut 1 _ => true | _ => false end) bx_events = true) by (vm_compute; reflexivity).
  intros e He. rewrite forallb_forall in E. specialize (E e He). clear He.
  destruct e as [| c k | c f | | |]; try discriminate; destruct c as [|[|[|]]]; try discriminate; try (destruct k; try discriminate);
    (split; [discriminate|]; split; [intros (c & k & u & a & H & _); discriminate|];
     split; [intros [(p & H & _)|(p & H & _)]; discriminate|intros (k & u & a & H); discriminate]).
Qed.
Lemma bx_unshared : unshared bx_world 1 0 (str "b").
Proof.
  split; [vm_compute; reflexivity|intros d|intros x].
  - vm_compute. repeat (destruct d as [|d]; try discriminate; auto).
  - intros H. destruct (bytes_eqb x (str "b")) eqn:E; [apply bytes_eqb_eq, E|]. exfalso. revert H.
    assert (Ew : w_manager bx_world = [(str "b", 0%nat); (str "a", 1%nat)]) by (vm_compute; reflexivity). rewrite Ew.
    cbn [aget]. rewrite E. destruct (bytes_eqb x (str "a")); intros H; discriminate.
Qed.
Lemma bx_keeps_up : forall s st, serves bx_world 1 0 s -> subscription s (str "x/+") st -> keeps_up ex_open bx_world 1 (str "x/+") st bx_events.
Proof.
  assert (Hl : length bx_events = 4%nat) by (vm_compute; reflexivity).
  let w := eval vm_compute in bx_world in assert (Ew : bx_world = w) by (vm_compute; reflexivity).
  let l := eval vm_compute in bx_events in assert (El : bx_events = l) by (vm_compute; reflexivity).
  intros s st [_ Hs] Hst. rewrite Ew in *. vm_compute in Hs. injection Hs as <-. vm_compute in Hst. injection Hst as <-.
  intros es1 es2 H.
  assert (Hn : es1 = firstn (length es1) (es1 ++ es2)) by (rewrite firstn_app, firstn_all, Nat.sub_diag; simpl; rewrite app_nil_r; reflexivity).
  assert (Hle : (length es1 <= 4)%nat) by (rewrite <- Hl, H, app_length; lia).
  rewrite <- H, El in Hn. rewrite Hn. clear - Hle. destruct (length es1) as [|[|[|[|[|n]]]]]; [vm_compute; lia..|lia].
Qed.
Lemma bx_sent : packets_sent 1 (net_outputs ex_open Release bx_all) = ConnAck bx_hello :: concat bx_groups ++ [].
Proof. vm_compute. reflexivity. Qed.
Lemma bx_sendable : Forall (fun k => client_sent k (bytes_of k) /\ reads V5 k) (ConnAck bx_hello :: concat bx_groups ++ []).
Proof.
  assert (Hwf : Forall wf_packet (ConnAck bx_hello :: concat bx_groups ++ [])).
  { constructor; [exact I|]. constructor; [split; [vm_compute; reflexivity|split; [exact I|discriminate]]|].
    repeat (constructor; [split; [discriminate|]; split; [apply e2e_str; vm_compute; reflexivity|]; split; [vm_compute; auto|exact I]|]). constructor. }
  cbn [app concat bx_groups] in *.
  repeat (inversion_clear Hwf as [|? ? H1 H2]; rename H2 into Hwf;
    constructor; [split; [split; [vm_compute; reflexivity|]; split; [vm_compute; discriminate|]; split; [exact H1|left; exact I]|exact I || reflexivity]|clear H1]).
  constructor.
Qed.
Definition bx_sub_read : subscribe_packet := match canon (Subscribe bx_sub) with Subscribe s => s | _ => bx_sub end.
Definition bx_told : list coutput := match crun client_new bx_reads with Some (_, outs) => outs | None => [] end.
Example C106_publish_to_recv_ex : exists ts s0,
  serves (nt_world (bx_state bx_before)) 1 0 s0 /\
  net_happens Release (bx_state bx_before) (NPoll 1 [] true) = ([EPacket 1 (Subscribe bx_sub_read)], ts) /\
  Forall (fun fo => utf8 (fst fo)) (sb_payload bx_sub_read) /\ In (str "x/+") (map fst (sb_payload bx_sub_read)) /\ topic_filter (str "x/+") /\
  unshared bx_world 1 0 (str "b") /\ (forall e, In e bx_events -> quiet 1 (str "b") (str "x/+") e) /\
  (forall s st, serves bx_world 1 0 s -> subscription s (str "x/+") st -> keeps_up ex_open bx_world 1 (str "x/+") st bx_events) /\
  ~ not_served bx_world 2 /\ topic_name (str "x/y") /\ matches (str "x/+") (str "x/y") /\
  cruns client_new bx_reads (bx_client bx_reads) bx_told /\ healthy bx_reads /\ ~ In IDrop bx_reads /\
  Forall (fun k => client_sent k (bytes_of k) /\ reads V5 k) (packets_sent 1 (net_outputs ex_open Release bx_all)) /\
  packets_sent 1 (net_outputs ex_open Release bx_all) = ConnAck bx_hello :: concat bx_groups ++ [] /\ Forall (fun g => g <> []) bx_groups /\
  client_reads Release V5 [] (map (fun g => concat (map bytes_of g)) bx_groups) (packets_read bx_reads ++ []) RClosed /\
  messages (told (bx_client bx_reads) bx_told) = [Message (str "x/+") (str "v") AtLeastOnce false; Message (str "x/+") (str "w") AtMostOnce false].
Proof.
  do 2 eexists. split; [split; vm_compute; reflexivity|]. split; [vm_compute; reflexivity|].
  split; [constructor; [apply utf8_valid_iff; vm_compute; reflexivity|constructor]|]. split; [left; reflexivity|]. split; [filter_tac|].
  split; [exact bx_unshared|]. split; [exact bx_quiet|]. split; [exact bx_keeps_up|]. split; [vm_compute; discriminate|].
  split; [name_tac|]. split; [match_tac|]. split; [apply crun_sound; vm_compute; reflexivity|].
  split; [intros j [<-|[<-|[<-|[]]]]; reflexivity|]. split; [intros [H|[H|[H|[]]]]; discriminate|].
  split; [rewrite bx_sent; exact bx_sendable|]. split; [exact bx_sent|]. split; [repeat constructor; discriminate|].
  split; [|vm_compute; reflexivity].
  vm_compute. do 3 (eapply creads_packet; [vm_compute; reflexivity|]). eapply creads_end; [vm_compute; reflexivity|discriminate].
Qed.
