(** Properties of the listener, of cancelled reads, of the shutdown and of the start of the
    daemon: C82-C86. *)
From Coq Require Import String.
From Verif Require Import Base Utf8 Codec SpecCodec Tac CodecFacts Str Maps Topic SpecTopic TopicFacts Property PacketProps Packets
  SpecPackets PacketsFacts PacketsRoundtrip Frame FrameFacts TopicTree TreeFacts Storage SpecStorage StorageFacts Broker SpecBroker BrokerFacts
  Auth Session Server SpecServer SessionFacts ServerFacts HandlerFacts HistoryFacts ProvenanceFacts WorldFacts DeliveryFacts
  StoreFacts ConnectFacts ResumeFacts WillFacts Examples.
From Verif Require Import Properties_Wire Properties_Routing Properties_Session Properties_Will Listener SpecListener ListenerFacts.
Local Open Scope list_scope.

(** ** C82: the listener survives errors of accept *)
Lemma repeat_split n k : (k <= n)%nat -> repeat false n = repeat false (n - k) ++ repeat false k.
Proof. intros H. rewrite <- repeat_app. f_equal. lia. Qed.
Lemma listen_stops os : forall k, (k <= 7)%nat ->
  (In LStop (listen (2 ^ N.of_nat k) os) <-> (exists b, os = repeat false (8 - k) ++ b) \/ failures_in_a_row 8 os).
Proof.
  induction os as [|[] os IH]; intros k Hk.
  - split; [intros []|]. intros [[b H]|(a & b & H)].
    + destruct (8 - k)%nat eqn:E; [lia|discriminate].
    + destruct a; discriminate.
  - cbn [listen]. change 1 with (2 ^ N.of_nat 0). split.
    + intros [H|H]; [discriminate|]. apply IH in H; [|lia]. right. destruct H as [[b ->]|(a & b & ->)].
      * exists [true], b. reflexivity.
      * exists (true :: a), b. reflexivity.
    + intros H. right. apply IH; [lia|]. right. destruct H as [[b H]|([|x a] & b & H)].
      * destruct (8 - k)%nat eqn:E; [lia|discriminate].
      * discriminate.
      * injection H as _ H. exists a, b. exact H.
  - cbn [listen]. destruct (Nat.eq_dec k 7) as [->|Hne].
    + split; [|intros _; left; reflexivity]. intros _. left. exists os. reflexivity.
    + assert (Hle : (64 <? 2 ^ N.of_nat k) = false).
      { apply N.ltb_ge. change 64 with (2 ^ 6). apply N.pow_le_mono_r; lia. }
      rewrite Hle. replace (2 ^ N.of_nat k * 2) with (2 ^ N.of_nat (S k)) by (rewrite Nat2N.inj_succ, N.pow_succ_r'; lia).
      replace (8 - k)%nat with (S (8 - S k)) by lia. split.
      * intros [H|H]; [discriminate|]. apply IH in H; [|lia]. destruct H as [[b ->]|(a & b & ->)].
        -- left. exists b. reflexivity.
        -- right. exists (false :: a), b. reflexivity.
      * intros H. right. apply IH; [lia|]. destruct H as [[b H]|([|x a] & b & H)].
        -- injection H as H. left. exists b. exact H.
        -- assert (H' : os = repeat false 7 ++ b) by (injection H as H; exact H). left.
           exists (repeat false k ++ b)%list. rewrite H', (repeat_split 7 k) by lia. rewrite <- app_assoc. reflexivity.
        -- injection H as _ H. right. exists a, b. exact H.
Qed.
(** The broker gives up exactly when eight calls of accept in a row fail. *)
Theorem C82_stops_iff os : In LStop (listen 1 os) <-> failures_in_a_row 8 os.
Proof.
  change 1 with (2 ^ N.of_nat 0). rewrite listen_stops by lia. split; [|auto].
  intros [[b ->]|H]; [|exact H]. exists [], b. reflexivity.
Qed.
Print Assumptions C82_stops_iff.
(** Until it gives up it takes every connection offered. *)
Lemma listen_accepts os : forall n, exists a b, os = a ++ b /\ accepted (listen n os) = offered a /\ (b = [] \/ In LStop (listen n os)).
Proof.
  induction os as [|[] os IH]; intros n.
  - exists [], []. auto.
  - destruct (IH 1) as (a & b & -> & H & H'). exists (true :: a), b. cbn [listen accepted offered]. rewrite H.
    split; [reflexivity|]. split; [reflexivity|]. destruct H' as [->|H']; [auto|right; right; exact H'].
  - cbn [listen]. destruct (64 <? n).
    + exists [], (false :: os). split; [reflexivity|]. split; [reflexivity|right; left; reflexivity].
    + destruct (IH (n * 2)) as (a & b & -> & H & H'). exists (false :: a), b. cbn [accepted offered]. rewrite H.
      split; [reflexivity|]. split; [reflexivity|]. destruct H' as [->|H']; [auto|right; right; exact H'].
Qed.
Theorem C82_accepts_all os : exists a b, os = a ++ b /\ accepted (listen 1 os) = offered a /\ (b = [] \/ failures_in_a_row 8 os).
Proof. destruct (listen_accepts os 1) as (a & b & H & H1 & H2). exists a, b. rewrite <- C82_stops_iff. auto. Qed.
Print Assumptions C82_accepts_all.
(** It never sleeps for more than 64 seconds at a time. *)
Lemma listen_sleeps os : forall n s, n <= 128 -> In (LSleep s) (listen n os) -> s <= 64.
Proof.
  induction os as [|[] os IH]; intros n s Hn H; cbn [listen] in H; [contradiction| |].
  - destruct H as [H|H]; [discriminate|]. apply IH in H; auto. lia.
  - destruct (64 <? n) eqn:E; [destruct H as [H|[]]; discriminate|]. apply N.ltb_ge in E. destruct H as [H|H]; [congruence|].
    apply IH in H; auto. lia.
Qed.
Theorem C82_waits_bounded os s : In (LSleep s) (listen 1 os) -> s <= 64.
Proof. apply listen_sleeps. lia. Qed.
Print Assumptions C82_waits_bounded.
(** It is false that errors of accept leave the clients that are connected alone: after errors for
    127 seconds (too many open files, say) the broker stops. *)
Theorem C82_error_spell_refuted : exists a b, listen 1 (a ++ b) = repeat LAccept (offered a) ++ listen 1 b
  /\ offered a = 3%nat /\ In LStop (listen 1 b) /\ slept (listen 1 b) = 127.
Proof. exists [true; true; true], (repeat false 8). vm_compute. repeat split. tauto. Qed.
Print Assumptions C82_error_spell_refuted.
Example C82_ex : listen 1 [true; false; false; true; false] = [LAccept; LSleep 1; LSleep 2; LAccept; LSleep 1].
Proof. reflexivity. Qed.

(** ** C83: cancelled reads lose nothing *)
(** Whatever branches [select!] takes and when, the server reads the packets it would read
    undisturbed, and so does the client. *)
Theorem C83_server_reads_on p buf ins ks out : server_polls p buf ins ks out <-> server_reads p buf (arrived ins) ks out.
Proof. split; [apply server_polls_reads|intros H; eapply server_reads_polls; eauto]. Qed.
Print Assumptions C83_server_reads_on.
Theorem C83_client_reads_on p v buf ins ks out : client_polls p v buf ins ks out <-> client_reads p v buf (arrived ins) ks out.
Proof. split; [apply client_polls_reads|intros H; eapply client_reads_polls; eauto]. Qed.
Print Assumptions C83_client_reads_on.
(** So packets arrive as they were sent, however they are split and whenever reads are cancelled
    (with the restrictions of C15). *)
Theorem C83_packets_arrive_partial p packets ins :
  Forall (fun kb => sent (fst kb) (snd kb) /\ reads V5 (fst kb)) packets ->
  (forall c, In (Chunk c) ins -> c <> []) -> concat (arrived ins) = concat (map snd packets) ->
  forall ks out, server_polls p [] ins ks out -> ks = map (fun kb => canon (fst kb)) packets /\ out = RClosed.
Proof.
  intros Hp Hc Hb ks out H. apply server_polls_reads in H. eapply C15_server_reads_deterministic; [exact H|].
  apply C15_server_framing_partial; auto. clear -Hc. induction ins as [|[c|] ins IH]; cbn [arrived].
  - constructor.
  - constructor; [apply Hc; left; reflexivity|]. apply IH. intros d Hd. apply Hc. right. exact Hd.
  - apply IH. intros d Hd. apply Hc. right. exact Hd.
Qed.
Print Assumptions C83_packets_arrive_partial.
Example C83_ex : server_polls Debug [] [Dropped; Chunk [0x3b]; Dropped; Dropped; Chunk [19; 0; 3; 97; 47; 98; 0; 10; 9; 1; 1; 38; 0; 1];
    Dropped; Chunk [107; 0; 1; 118; 104; 105]; Dropped] [ex_publish] RClosed.
Proof.
  apply sp_skipped. eapply sp_dropped; [vm_compute; reflexivity|]. eapply sp_dropped; [vm_compute; reflexivity|].
  eapply sp_dropped; [vm_compute; reflexivity|]. eapply sp_packet; [vm_compute; reflexivity|].
  eapply sp_dropped; [vm_compute; reflexivity|]. eapply sp_end; [vm_compute; reflexivity|discriminate].
Qed.

(** ** C84: shutting down *)
Lemma end_step cfg w c i s : reachable cfg w -> serves w c i s ->
  (forall d j s1, d <> c -> j <> i -> (serves w d j s1 <-> serves (end_connection c i w) d j s1))
  /\ (forall d, aget Nat.eqb d (w_conns (end_connection c i w)) = if Nat.eqb d c then None else aget Nat.eqb d (w_conns w))
  /\ (forall j s1, nth_error (w_heap w) j = Some s1 -> exists s2, nth_error (w_heap (end_connection c i w)) j = Some s2 /\ se_subs s2 = se_subs s1).
Proof.
  intros Hr Hs. split; [|split].
  - intros d j s1 Hd Hj. unfold serves. rewrite end_conns, end_heap_other by auto. rewrite (aget_del_other Nat.eqb nateqb_spec) by auto. reflexivity.
  - intros d. rewrite end_conns. destruct (Nat.eqb d c) eqn:E.
    + apply Nat.eqb_eq in E as ->. apply aget_del_same, nateqb_spec.
    + apply Nat.eqb_neq in E. apply (aget_del_other Nat.eqb nateqb_spec); auto.
  - intros j s1 Hj. destruct (Nat.eq_dec j i) as [->|Hne].
    + rewrite (end_heap_same _ _ _ s1) by exact Hj. eexists. split; reflexivity.
    + rewrite end_heap_other by auto. eauto.
Qed.

Lemma announced_end w c i f order ms : one_session_each w -> aget Nat.eqb c (w_conns w) = Some i -> ~ In c order ->
  (forall d j s1, d <> c -> j <> i -> (serves w d j s1 <-> serves (end_connection c i w) d j s1)) ->
  announced (end_connection c i w) f order ms -> announced w f order ms.
Proof.
  intros Ho Hc Hn Hs H.
  assert (Hj : forall d j s1, d <> c -> serves (end_connection c i w) d j s1 -> serves w d j s1).
  { intros d j s1 Hd Hs1. apply Hs; auto. intros ->. destruct Hs1 as [Hs1 _]. rewrite end_conns, (aget_del_other Nat.eqb nateqb_spec) in Hs1 by auto.
    apply Hd. eapply Ho; eauto. }
  induction H as [|d j s1 order ms H1 H2 _ IH|d j s1 x m order ms H1 H2 H3 H4 _ IH|d j s1 x order ms H1 H2 H3 _ IH].
  - constructor.
  - assert (Hd : d <> c) by (intros ->; apply Hn; left; reflexivity).
    eapply an_none; eauto. apply IH. intros H. apply Hn. right. exact H.
  - assert (Hd : d <> c) by (intros ->; apply Hn; left; reflexivity).
    eapply an_will; eauto. apply IH. intros H. apply Hn. right. exact H.
  - assert (Hd : d <> c) by (intros ->; apply Hn; left; reflexivity).
    eapply an_other; eauto. apply IH. intros H. apply Hn. right. exact H.
Qed.
(** In whatever order the connections see the shutdown, every one of them is closed, and the will
    of each is published once to every matching subscription. Missing: connections that share a
    session, and events between the signal and the end of a connection (C45). *)
Theorem C84_wills_published_partial cfg order : forall w w' o,
  reachable cfg w -> one_session_each w -> wills_on_names w -> NoDup order -> (forall c, In c order <-> ~ not_served w c) ->
  shutdown cfg order w = (w', o) ->
  o = map Closed order /\ (forall c, not_served w' c)
  /\ forall j s f, nth_error (w_heap w) j = Some s -> subscribed s f -> exists ms, announced w f order ms /\ sent_to w' f = sent_to w f ++ ms.
Proof.
  unfold shutdown. induction order as [|c order IH]; intros w w' o Hr Ho Hw Hnd Hall H.
  - injection H as <- <-. split; [reflexivity|]. split.
    + intros c. unfold not_served. destruct (aget Nat.eqb c (w_conns w)) eqn:E; [|reflexivity].
      exfalso. apply (proj2 (Hall c)). unfold not_served. congruence.
    + intros j s f _ _. exists []. split; [constructor|]. rewrite app_nil_r. reflexivity.
  - inversion Hnd as [|c0 order0 Hc Hnd']; subst.
    assert (Hsv : exists i s, serves w c i s).
    { assert (Hc1 : ~ not_served w c) by (apply Hall; left; reflexivity). unfold not_served in Hc1.
      destruct (aget Nat.eqb c (w_conns w)) as [i|] eqn:E; [|congruence]. destruct (reachable_prov cfg w Hr) as [h Hp].
      pose proof (pv_wf h w Hp) as Hwf. destruct (nth_error (w_heap w) i) as [s|] eqn:Es; [|apply nth_error_None in Es; apply (proj2 Hwf) in E; lia].
      exists i, s. split; auto. }
    destruct Hsv as (i & s & Hs). cbn [map run] in H.
    destruct (step cfg w (EEnd c)) as [w1 o1] eqn:E1.
    pose proof (C45_lost_connection cfg w c i s w1 o1 Hr Hs E1) as (-> & _ & _ & Hwill & _ & Hno).
    rewrite (step_end cfg w c i s Hs) in E1. injection E1 as <-.
    destruct (run cfg (map EEnd order) (end_connection c i w)) as [w2 o2] eqn:E2. injection H as <- <-.
    destruct (end_step cfg w c i s Hr Hs) as (Hse & Hcn & Hheap).
    assert (Hother : forall d j s1, serves (end_connection c i w) d j s1 -> d <> c /\ j <> i /\ serves w d j s1).
    { intros d j s1 [Hd Hj]. pose proof Hd as Hd'. rewrite Hcn in Hd. destruct (Nat.eqb d c) eqn:E; [discriminate|]. apply Nat.eqb_neq in E.
      assert (j <> i) by (intros ->; apply E; eapply Ho; [exact Hd|apply Hs]). split; [exact E|]. split; [auto|]. apply Hse; auto. split; auto. }
    destruct (IH (end_connection c i w) w2 o2) as (-> & Hn2 & Hsent); auto.
    { destruct Hr as [es Hr]. exists (es ++ [EEnd c]). rewrite run_app. rewrite Hr. cbn [fst run]. rewrite (step_end cfg w c i s Hs). reflexivity. }
    { intros a b j Ha Hb. rewrite Hcn in Ha, Hb. destruct (Nat.eqb a c), (Nat.eqb b c); try discriminate. eapply Ho; eauto. }
    { intros d j s1 x Hd. apply Hother in Hd as (_ & _ & Hd). eapply Hw; eauto. }
    { intros d. unfold not_served. rewrite Hcn. destruct (Nat.eqb d c) eqn:E.
      - apply Nat.eqb_eq in E as ->. split; [intros Hx; contradiction|intros Hx; congruence].
      - apply Nat.eqb_neq in E. rewrite <- (Hall d : In d (c :: order) <-> ~ aget Nat.eqb d (w_conns w) = None). split; [right; auto|].
        intros [Hx|Hx]; [congruence|exact Hx]. }
    split; [reflexivity|]. split; [exact Hn2|].
    intros j sj f Hj Hf. destruct (Hheap j sj Hj) as (sj' & Hj' & Hsub).
    destruct (Hsent j sj' f Hj') as (ms & Han & Hms). { unfold subscribed. rewrite Hsub. exact Hf. }
    assert (Han' : announced w f order ms). { eapply announced_end; eauto. apply Hs. }
    destruct (se_will s) as [x|] eqn:Ex.
    + destruct (Hwill x eq_refl (Hw c i s x Hs Ex)) as (m & Hm & Hrt). destruct (Hrt j sj f Hj Hf) as [[Hmt Hse1]|[Hmt Hse1]].
      * exists (m :: ms). split; [eapply an_will; eauto|]. rewrite Hms, Hse1, <- app_assoc. reflexivity.
      * exists ms. split; [eapply an_other; eauto|]. rewrite Hms, Hse1. reflexivity.
    + destruct (Hno eq_refl) as [Hnr _]. exists ms. split; [eapply an_none; eauto|]. rewrite Hms. unfold sent_to. rewrite Hnr. reflexivity.
Qed.
Print Assumptions C84_wills_published_partial.
(** The daemon does not wait for its connections: it may exit before any of them has published
    its will, whatever the wills and the subscribers. *)
Theorem C84_daemon_waits_refuted : exists es order c i s x f j sj, let w := state ex_open es in
  (forall d, In d order <-> ~ not_served w d) /\ NoDup order /\ serves w c i s /\ se_will s = Some x /\ topic_name (wl_topic x)
  /\ nth_error (w_heap w) j = Some sj /\ subscribed sj f /\ matches f (wl_topic x)
  /\ (forall n ms, (n <= 1)%nat -> announced w f order ms -> sent_to (fst (daemon_exit ex_open order n w)) f <> sent_to w f ++ ms).
Proof.
  exists [ex_first 1 (ex_connect "s" true); ex_sub 1 "gone"; ex_first 2 (ex_connect_will "a" true "gone" "W")], [1%nat; 2%nat], 2%nat, 1%nat.
  eexists. exists (Mk_will (str "gone") (str "W") AtMostOnce false), (str "gone"), 0%nat. eexists. cbv zeta.
  assert (Ew : exists w, state ex_open [ex_first 1 (ex_connect "s" true); ex_sub 1 "gone"; ex_first 2 (ex_connect_will "a" true "gone" "W")] = w) by eauto.
  split. { intros d. unfold not_served. vm_compute. destruct d as [|[|[|d]]]; split; intros H; try (intros; discriminate); try tauto;
    try (destruct H as [H|[H|[]]]; discriminate). all: exfalso; apply H; reflexivity. }
  split; [repeat constructor; simpl; intuition discriminate|].
  split; [split; vm_compute; reflexivity|]. split; [reflexivity|]. split; [apply topic_name_gone|].
  split; [vm_compute; reflexivity|]. split; [left; reflexivity|]. split; [match_tac|].
  intros n ms Hn Ha.
  assert (Hms : length ms = 1%nat).
  { inversion Ha as [|? ? ? ? ? A1 A2 A3|? ? ? ? ? ? ? A1 A2 A3 A4 A5|? ? ? ? ? ? A1 A2 A3 A4]; subst;
      destruct A1 as [A11 A12]; vm_compute in A11; injection A11 as <-; vm_compute in A12; injection A12 as <-; cbn in A2; try discriminate.
    inversion A3 as [|? ? ? ? ? B1 B2 B3|? ? ? ? ? ? ? B1 B2 B3 B4 B5|? ? ? ? ? ? B1 B2 B3 B4]; subst;
      destruct B1 as [B11 B12]; vm_compute in B11; injection B11 as <-; vm_compute in B12; injection B12 as <-; cbn in B2; try discriminate.
    - inversion B5; subst. reflexivity.
    - injection B2 as <-. exfalso. apply B3. cbn [wl_topic]. match_tac. }
  intros H. assert (H0 : sent_to (fst (daemon_exit ex_open [1%nat; 2%nat] n (state ex_open [ex_first 1 (ex_connect "s" true); ex_sub 1 "gone"; ex_first 2 (ex_connect_will "a" true "gone" "W")]))) (str "gone") = []).
  { destruct n as [|[|n]]; [vm_compute; reflexivity|vm_compute; reflexivity|lia]. }
  rewrite H0 in H. symmetry in H. apply app_eq_nil in H as [_ ->]. discriminate Hms.
Qed.
Print Assumptions C84_daemon_waits_refuted.
(** A connection that is being served ends when it sees the shutdown; one that has not sent its
    CONNECT is not told, and stays for as long as its peer is silent. *)
Theorem C84_served_connection_ends ts t : fold_left task_step ts (Serving false) = t -> In TShutdown ts ->
  t = Finished \/ task_step t TSeen = Finished.
Proof.
  intros H Hin.
  assert (Hf : forall ts, fold_left task_step ts Finished = Finished) by (induction ts0; auto).
  assert (Ht : forall ts, fold_left task_step ts (Serving true) = Finished \/ fold_left task_step ts (Serving true) = Serving true).
  { induction ts0 as [|[] ts0 IHt]; cbn [fold_left task_step]; auto. }
  revert H. induction ts as [|x ts IHs]; [destruct Hin|]. cbn [fold_left]. destruct Hin as [->|Hin].
  - cbn [task_step]. intros <-. destruct (Ht ts) as [->| ->]; [left; reflexivity|right; reflexivity].
  - destruct x; cbn [task_step]; auto.
    + intros <-. destruct (Ht ts) as [->| ->]; [left; reflexivity|right; reflexivity].
    + rewrite Hf. intros <-. left. reflexivity.
Qed.
Print Assumptions C84_served_connection_ends.
Theorem C84_silent_connection_refuted n : fold_left task_step (TShutdown :: repeat TSeen n) (Greeting false) = Greeting true.
Proof. cbn [fold_left task_step]. induction n; auto. Qed.
Print Assumptions C84_silent_connection_refuted.
Example C84_ex : let w := state ex_open [ex_first 1 (ex_connect "s" true); ex_sub 1 "gone"; ex_first 2 (ex_connect_will "a" true "gone" "W")] in
  exists w', shutdown ex_open [1%nat; 2%nat] w = (w', [Closed 1; Closed 2])
    /\ map mg_payload (sent_to w' (str "gone")) = [Some (str "W")].
Proof. eexists. split; [vm_compute; reflexivity|]. vm_compute. reflexivity. Qed.

(** ** C85: a restart of the daemon *)
(** False: a restarted daemon behaves like one that never ran, whatever happened before. *)
Theorem C85_nothing_survives_refuted cfg es es2 : run cfg es2 (daemon_restart (state cfg es)) = run cfg es2 world_new.
Proof. reflexivity. Qed.
Print Assumptions C85_nothing_survives_refuted.
(** So a client that resumes is told that there is no session, and has no subscription. *)
Theorem C85_session_lost_refuted : exists es c k n q r,
  (* the client was told that it is subscribed, and the retained message was acknowledged *)
  In (Sent c (SubAck q)) (snd (run ex_open es world_new)) /\ In (Sent c (PubAck r)) (snd (run ex_open es world_new)) /\
  In (EPacket c (Publish n)) es /\ pb_retain n = true /\ map mg_payload (mem_get_retained (str "#") (w_store (state ex_open es))) = [pb_payload n] /\
  exists w' x i s, step ex_open (daemon_restart (state ex_open es)) (EFirst c (Some (Connect k)) (str "u") true) = (w', [Sent c (ConnAck x)])
    /\ presented k = str "a" /\ cf_clean_start (c_flags k) = false /\ ca_session_present x = false
    /\ serves w' c i s /\ (forall f, ~ subscribed s f) /\ mem_get_retained (str "#") (w_store w') = [].
Proof.
  exists [ex_first 1 (ex_connect "a" false); ex_sub 1 "t"; EPacket 1 (Publish (Examples.ex_publish AtLeastOnce (Some 5) true "t" "v")); EEnd 1],
    1%nat, (ex_connect "a" false), (Examples.ex_publish AtLeastOnce (Some 5) true "t" "v"). do 2 eexists.
  split; [vm_compute; right; left; reflexivity|]. split; [vm_compute; right; right; left; reflexivity|].
  split; [right; right; left; reflexivity|]. split; [reflexivity|]. split; [vm_compute; reflexivity|].
  do 4 eexists. split; [vm_compute; reflexivity|]. split; [reflexivity|]. split; [reflexivity|]. split; [reflexivity|].
  split; [split; vm_compute; reflexivity|]. split; [intros f []|]. vm_compute. reflexivity.
Qed.
Print Assumptions C85_session_lost_refuted.

(** ** C86: TLS *)
(** With TLS enabled nobody is served in the clear, and clients need a certificate if and only if
    the configuration names an authority; without TLS everyone is served in the clear. *)
Theorem C86_tls_as_configured loads t r : daemon_start loads t = Serves r ->
  (ts_enabled t = false /\ r = PlainTcp)
  \/ (ts_enabled t = true /\ exists c k, ts_cert t = Some c /\ ts_key t = Some k /\ r = OverTls c k (ts_ca t) /\ loads (Mk_tls_files c k (ts_ca t)) = true).
Proof.
  unfold daemon_start, daemon_tls. destruct (ts_enabled t); [|intros H; injection H as <-; auto].
  destruct (ts_cert t) as [c|], (ts_key t) as [k|]; try discriminate. destruct (loads _) eqn:E; [|discriminate].
  intros H. injection H as <-. right. split; [reflexivity|]. exists c, k. auto.
Qed.
Print Assumptions C86_tls_as_configured.
(** Conversely the broker serves if TLS is off, or the files are named and load. *)
Theorem C86_serves_if_possible loads t :
  (exists r, daemon_start loads t = Serves r)
  <-> (ts_enabled t = true -> exists c k, ts_cert t = Some c /\ ts_key t = Some k /\ loads (Mk_tls_files c k (ts_ca t)) = true).
Proof.
  unfold daemon_start, daemon_tls. destruct (ts_enabled t).
  - destruct (ts_cert t) as [c|], (ts_key t) as [k|].
    + cbn [tf_cert tf_key tf_ca]. destruct (loads _) eqn:E; split.
      * intros _ _. exists c, k. auto.
      * eauto.
      * intros [r H]. discriminate.
      * intros H. destruct (H eq_refl) as (c' & k' & Hc & Hk & Hl). injection Hc as <-. injection Hk as <-. congruence.
    + split; [intros [r H]; discriminate|]. intros H. destruct (H eq_refl) as (c' & k' & Hc & Hk & Hl). discriminate.
    + split; [intros [r H]; discriminate|]. intros H. destruct (H eq_refl) as (c' & k' & Hc & Hk & Hl). discriminate.
    + split; [intros [r H]; discriminate|]. intros H. destruct (H eq_refl) as (c' & k' & Hc & Hk & Hl). discriminate.
  - split; [discriminate|eauto].
Qed.
Print Assumptions C86_serves_if_possible.
(** It is false that the exit status tells whether the broker could start: with files that do not
    load it is the one of a normal end. *)
Theorem C86_failure_reported_refuted : exists loads t, ts_enabled t = true /\ ts_cert t <> None /\ ts_key t <> None /\ daemon_start loads t = Returned.
Proof. exists (fun _ => false), (Mk_tls_section true (Some (str "cert.pem")) (Some (str "key.pem")) None). repeat split; discriminate. Qed.
Print Assumptions C86_failure_reported_refuted.
Example C86_ex : daemon_start (fun f => bytes_eqb (tf_cert f) (str "cert.pem")) (Mk_tls_section true (Some (str "cert.pem")) (Some (str "key.pem")) (Some (str "ca.pem")))
  = Serves (OverTls (str "cert.pem") (str "key.pem") (Some (str "ca.pem"))).
Proof. vm_compute. reflexivity. Qed.
