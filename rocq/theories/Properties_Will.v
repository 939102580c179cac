(** Properties C45-C47: wills, and several connections of one client. *)
From Coq Require Import String.
From Verif Require Import Base Utf8 Codec SpecCodec Tac CodecFacts Str Maps Topic SpecTopic TopicFacts Property PacketProps Packets
  TopicTree TreeFacts Storage SpecStorage StorageFacts Broker SpecBroker BrokerFacts Auth Session Server SpecServer SessionFacts ServerFacts
  HandlerFacts HistoryFacts ProvenanceFacts WorldFacts DeliveryFacts StoreFacts ConnectFacts ResumeFacts WillFacts Examples.
From Verif Require Import Properties_Routing Properties_Session.

Lemma topic_name_gone : topic_name (str "gone").
Proof. name_tac. Qed.

(** ** C45: false. A connection whose client identifier connects again loses its will. *)
Theorem C45_will_published_refuted : exists es c k x w' o,
  opened_by ex_open es c k /\ declares k x /\ topic_name (wl_topic x) /\
  step ex_open (state ex_open es) (EEnd c) = (w', o) /\ o = [Closed c] /\ nothing_routed (state ex_open es) w' /\
  (* although somebody is subscribed to its topic *)
  exists j s, nth_error (w_heap (state ex_open es)) j = Some s /\ subscribed s (wl_topic x).
Proof.
  exists [ex_first 1 (ex_connect "s" true); ex_sub 1 "gone"; ex_first 2 (ex_connect_will "a" true "gone" "W"); ex_first 3 (ex_connect "a" false)],
    2%nat, (ex_connect_will "a" true "gone" "W"), (Mk_will (str "gone") (str "W") AtMostOnce false). do 2 eexists.
  split. { exists [ex_first 1 (ex_connect "s" true); ex_sub 1 "gone"], (str "uuid"). eexists.
    split; [reflexivity|]. split; [reflexivity|]. split; [left; reflexivity|].
    intros [|e1 [|e2 p]] q H; simpl in H; try discriminate H; try (injection H); intros; subst; vm_compute; discriminate. }
  split; [repeat split|]. split; [apply topic_name_gone|]. split; [vm_compute; reflexivity|]. split; [reflexivity|].
  split; [intros q; reflexivity|]. exists 0%nat. eexists. split; [vm_compute; reflexivity|]. left. reflexivity.
Qed.
Print Assumptions C45_will_published_refuted.
(** And after a restart the will of an earlier CONNECT is published in place of the one the
    connection registered. *)
Theorem C45_own_will_refuted : exists es c k x y w' o,
  opened_by ex_open es c k /\ declares k x /\ topic_name (wl_topic x) /\ topic_name (wl_topic y) /\ x <> y /\
  step ex_open (state ex_open es) (EEnd c) = (w', o) /\ o = [Closed c] /\
  exists m f, announces y m /\ sent_to w' f = sent_to (state ex_open es) f ++ [m] /\ matches f (wl_topic y)
    /\ exists j s, nth_error (w_heap (state ex_open es)) j = Some s /\ subscribed s f.
Proof.
  exists [ex_first 1 (ex_connect_will "a" true "gone" "old"); ERestart; ex_first 2 (ex_connect "s" true); ex_sub 2 "gone"; ex_first 3 (ex_connect_will "a" false "gone" "new")],
    3%nat, (ex_connect_will "a" false "gone" "new"), (Mk_will (str "gone") (str "new") AtMostOnce false), (Mk_will (str "gone") (str "old") AtMostOnce false).
  do 2 eexists.
  split. { exists [ex_first 1 (ex_connect_will "a" true "gone" "old"); ERestart; ex_first 2 (ex_connect "s" true); ex_sub 2 "gone"], (str "uuid"), [].
    split; [reflexivity|]. split; [reflexivity|]. split; [left; reflexivity|].
    intros [|e1 p] q H; simpl in H; try discriminate H; vm_compute; discriminate. }
  split; [repeat split|]. split; [apply topic_name_gone|]. split; [apply topic_name_gone|]. split; [discriminate|].
  split; [vm_compute; reflexivity|]. split; [reflexivity|].
  exists (Mk_message None (str "gone") false AtMostOnce false (Some (str "old"))), (str "gone").
  split; [repeat split|]. split; [vm_compute; reflexivity|].
  split; [match_tac|]. exists 0%nat. eexists. split; [vm_compute; reflexivity|]. left. reflexivity.
Qed.
Print Assumptions C45_own_will_refuted.
(** What holds for every reachable state: when a connection is lost, the will of its session
    is published once to every matching subscription and forgotten; without one nothing is
    published. After a DISCONNECT nothing is published and the will is forgotten. *)
Theorem C45_lost_connection cfg w c i s w' o :
  reachable cfg w -> serves w c i s -> step cfg w (EEnd c) = (w', o) ->
  o = [Closed c] /\ not_served w' c /\ (exists s', nth_error (w_heap w') i = Some s' /\ se_will s' = None)
  /\ (forall x, se_will s = Some x -> topic_name (wl_topic x) -> exists m, announces x m /\ routes (wl_topic x) m w w')
  /\ (se_will s <> None -> no_will w' i (se_client_id s))
  /\ (se_will s = None -> nothing_routed w w' /\ same_retained w w').
Proof.
  intros Hr Hs H. destruct (reachable_prov cfg w Hr) as [h Hp]. pose proof (pv_wf h w Hp) as Hwf.
  destruct (step_after cfg w (EEnd c) w' o Hwf ltac:(discriminate) H) as [Hl Hret].
  unfold step_ops in Hl, Hret. rewrite (serves_session _ _ _ _ Hs) in Hl, Hret.
  rewrite (step_end cfg w c i s Hs) in H. injection H as <- <-. split; [reflexivity|].
  split; [unfold not_served; rewrite end_conns; apply aget_del_same, nateqb_spec|].
  assert (Hx : exists s', nth_error (w_heap (end_connection c i w)) i = Some s' /\ se_will s' = None).
  { rewrite (end_heap_same _ _ _ s) by apply Hs. eexists. split; [reflexivity|]. reflexivity. }
  split; [exact Hx|]. split; [|split].
  - intros x Ex Ht. exists (will_message x). split; [repeat split|]. rewrite Ex in Hl. eapply will_routes; eauto.
  - intros Hne. split; [exact Hx|]. destruct Hs as [_ Hi]. unfold end_connection. simpl. rewrite Hi.
    destruct (se_will s); [|congruence]. simpl. apply aget_del_same, beqb_spec.
  - intros Hw. rewrite Hw in Hl, Hret. split; [intros q; rewrite Hl; reflexivity|exact Hret].
Qed.
Print Assumptions C45_lost_connection.
Theorem C45_disconnect cfg w c i s d w' o :
  reachable cfg w -> serves w c i s -> step cfg w (EPacket c (Disconnect d)) = (w', o) ->
  o = [Closed c] /\ not_served w' c /\ nothing_routed w w' /\ same_retained w w' /\ no_will w' i (se_client_id s).
Proof.
  intros Hr Hs H. destruct (reachable_prov cfg w Hr) as [h Hp]. pose proof (pv_wf h w Hp) as Hwf.
  destruct (step_after cfg w (EPacket c (Disconnect d)) w' o Hwf ltac:(discriminate) H) as [Hl Hret]. simpl in Hl, Hret.
  rewrite (step_disconnect cfg w c i s d Hs) in H. injection H as <- <-. split; [reflexivity|].
  split; [unfold not_served, disconnect_step; rewrite end_conns; apply aget_del_same, nateqb_spec|].
  split; [intros q; rewrite Hl; reflexivity|]. split; [exact Hret|]. split.
  - destruct Hs as [_ Hi]. rewrite (disconnect_heap _ _ _ _ _ _ Hi Hi), Nat.eqb_refl. eexists. split; reflexivity.
  - destruct Hs as [_ Hi]. unfold disconnect_step, end_connection. cbn [w_heap set_conns set_store].
    pose proof (put_same i (set_will None s) s w Hi) as Hx. simpl in Hx |- *. rewrite Hx. simpl. apply aget_del_same, beqb_spec.
Qed.
Print Assumptions C45_disconnect.
(** Nothing else publishes: what is routed is a PUBLISH, or the will of the one connection
    that ends with this event. *)
Theorem C45_nothing_else cfg w e w' o :
  reachable cfg w -> e <> ERestart -> step cfg w e = (w', o) -> ~ nothing_routed w w' ->
  (exists c p, e = EPacket c (Publish p) /\ ~ not_served w c)
  \/ exists c i s x, serves w c i s /\ o = [Closed c] /\ not_served w' c /\ se_will s = Some x
       /\ (forall d, e <> EPacket c (Disconnect d)) /\ no_will w' i (se_client_id s)
       /\ (topic_name (wl_topic x) -> exists m, announces x m /\ routes (wl_topic x) m w w').
Proof.
  intros Hr He H Hno. destruct (reachable_prov cfg w Hr) as [h Hp]. pose proof (pv_wf h w Hp) as Hwf.
  destruct (step_after cfg w e w' o Hwf He H) as [Hl _].
  assert (Hsubs : forall fs, step_ops cfg w e <> map BSub fs).
  { intros fs Hfs. apply Hno. intros q. rewrite Hl, Hfs. apply subs_log. }
  destruct e as [c k u a|c k|c f|c|c|]; [| | | | |congruence].
  - exfalso. unfold step_ops in Hsubs. destruct k as [[]|]; try apply (Hsubs [] eq_refl). destruct a; try apply (Hsubs [] eq_refl).
    destruct (is_some _); try apply (Hsubs [] eq_refl). destruct (authenticated _ _); [eapply Hsubs; reflexivity|apply (Hsubs [] eq_refl)].
  - destruct (served_session w c) as [s|] eqn:Es.
    2:{ exfalso. unfold step_ops in Hsubs. rewrite Es in Hsubs. destruct k; apply (Hsubs [] eq_refl). }
    assert (Hs : exists i, serves w c i s).
    { unfold served_session in Es. destruct (aget Nat.eqb c (w_conns w)) as [i|] eqn:Ec; [|discriminate]. exists i. split; auto. }
    destruct Hs as [i Hs].
    destruct (publish_dec k) as [[p ->]|Hnp].
    { left. exists c, p. split; [reflexivity|]. destruct Hs as [Hc _]. unfold not_served. congruence. }
    destruct (disconnect_dec k) as [[d ->]|Hk]; [exfalso; apply (Hsubs [] eq_refl)|].
    assert (Hso : step_ops cfg w (EPacket c k) = packet_ops k ++ (if fails (sv_manager cfg) k s (w_broker w) then will_ops (se_will s) else [])).
    { unfold step_ops. rewrite Es. destruct k; auto; exfalso; eapply Hk; reflexivity. }
    rewrite Hso in Hl, Hsubs. clear Hso.
    destruct (fails (sv_manager cfg) k s (w_broker w)) eqn:Ef.
    2:{ exfalso. rewrite app_nil_r in Hsubs. destruct k; try apply (Hsubs [] eq_refl); [eapply Hnp; reflexivity|eapply Hsubs; reflexivity]. }
    assert (Hpo : packet_ops k = []).
    { destruct k; try reflexivity; [exfalso; eapply Hnp; reflexivity|]. unfold fails in Ef. simpl in Ef. unfold handle_subscribe in Ef.
      destruct (subscribe_loop _ _ _) as [[? ?] ?]. discriminate. }
    rewrite Hpo in Hl, Hsubs. simpl app in Hl, Hsubs.
    destruct (se_will s) as [x|] eqn:Ew; [|exfalso; apply (Hsubs [] eq_refl)].
    right. exists c, i, s, x. split; [exact Hs|]. rewrite (step_packet cfg w c i s k Hs Hk) in H. unfold packet_step in H. unfold fails in Ef.
    destruct (process_incoming (sv_manager cfg) k s (w_broker w)) as [[r s1] b1] eqn:Ep. cbn [fst] in Ef. destruct r as [?|er|]; try discriminate.
    destruct (process_after _ _ _ _ _ _ _ Hk Ep) as [_ Hw]. pose proof (proj2 (proj2 (proj2 (process_store _ _ _ _ _ _ _ Ep)))) as Hid.
    injection H as <- <-. split; [reflexivity|]. split; [unfold not_served; rewrite end_conns; apply aget_del_same, nateqb_spec|].
    split; [exact Ew|]. split; [intros d Hd; injection Hd as ->; eapply Hk; reflexivity|]. split.
    + assert (Hq : nth_error (w_heap (put_session i s1 (set_broker b1 w))) i = Some s1) by (eapply put_same; simpl; eauto; apply Hs).
      split; [rewrite (end_heap_same _ _ _ _ Hq); eexists; split; reflexivity|].
      unfold end_connection. change (w_heap (set_conns ?a ?b)) with (w_heap b). rewrite Hq, Hw, Ew, Hid. simpl. apply aget_del_same, beqb_spec.
    + intros Ht. exists (will_message x). split; [repeat split|]. eapply will_routes; eauto.
  - exfalso. apply (Hsubs [] eq_refl).
  - right. unfold step_ops in Hsubs. destruct (served_session w c) as [s|] eqn:Es; [|exfalso; apply (Hsubs [] eq_refl)].
    destruct (se_will s) as [x|] eqn:Ew; [|exfalso; apply (Hsubs [] eq_refl)].
    unfold served_session in Es. destruct (aget Nat.eqb c (w_conns w)) as [i|] eqn:Ec; [|discriminate].
    destruct (C45_lost_connection cfg w c i s w' o Hr (conj Ec Es) H) as (A & B & _ & D & F & _).
    exists c, i, s, x. split; [split; auto|]. split; [exact A|]. split; [exact B|]. split; [exact Ew|]. split; [discriminate|].
    split; [apply F; congruence|intros Ht; apply D; auto].
  - exfalso. apply (Hsubs [] eq_refl).
Qed.
Print Assumptions C45_nothing_else.
(** The will of the session is the one of the CONNECT, if the client made a clean start, or
    nobody else was using its identifier and the broker had not been restarted; and no client
    presents the identifier afterwards. Missing: takeover by the same client, and restarts. *)
Theorem C45_will_published_partial cfg es1 c k u es2 w' o :
  not_served (state cfg es1) c -> accepts cfg k -> presented k <> [] ->
  (cf_clean_start (c_flags k) = true \/ (alone cfg es1 (presented k) /\ ~ In ERestart es1)) ->
  ~ In ERestart es2 -> (forall x y z, ~ In (EFirst c x y z) es2) ->
  (forall d q v a, In (EFirst d (Some (Connect q)) v a) es2 -> presented q <> presented k) ->
  let w := state cfg (es1 ++ EFirst c (Some (Connect k)) u true :: es2) in
  ~ not_served w c -> step cfg w (EEnd c) = (w', o) ->
  o = [Closed c] /\ not_served w' c
  /\ (forall x, declares k x -> topic_name (wl_topic x) -> exists m, announces x m /\ routes (wl_topic x) m w w')
  /\ ((forall x, ~ declares k x) -> nothing_routed w w' /\ same_retained w w').
Proof.
  intros Hn Ha Hne Hcl Hre Hf Hp w Hs H.
  destruct (will_since_connect cfg es1 c k u es2 Hn Ha Hne Hcl Hre Hf Hp) as [(i & s & _ & Hsv & Hw)|Hx]; [|contradiction].
  fold w in Hsv. destruct (C45_lost_connection cfg w c i s w' o (state_reachable _ _) Hsv H) as (A & B & _ & D & _ & G).
  split; [exact A|]. split; [exact B|]. split.
  - intros x Hd Ht. apply D; auto. rewrite Hw. apply declares_iff, Hd.
  - intros Hno. apply G. rewrite Hw. destruct (will_of_connect k) as [x|] eqn:E; [|reflexivity]. apply declares_iff in E. exfalso. eapply Hno; eauto.
Qed.
Print Assumptions C45_will_published_partial.
Example C45_ex : let k := ex_connect_will "a" false "gone" "W" in
  let es1 := [ex_first 1 (ex_connect "s" true); ex_sub 1 "gone"] in
  let w := state ex_open (es1 ++ [ex_first 2 k; ex_pub 2 AtMostOnce None "t" "v"]) in
  alone ex_open es1 (presented k) /\ ~ In ERestart es1 /\ declares k (Mk_will (str "gone") (str "W") AtMostOnce false)
  /\ (exists w' o, step ex_open w (EEnd 2) = (w', o) /\ length (sent_to w' (str "gone")) = 1%nat)
  /\ (exists w' o, step ex_open w (EPacket 2 (Disconnect (Mk_disconnect_packet Success None))) = (w', o) /\ length (sent_to w' (str "gone")) = 0%nat).
Proof.
  split; [split|].
  - intros d q (p & u & r & H & _). destruct p as [|? [|? [|? p]]]; try discriminate; injection H; intros; subst; vm_compute; discriminate.
  - intros d q v a (p & r & H & _) Hq. destruct p as [|? [|? [|? p]]]; try discriminate; injection H; intros; subst; vm_compute in Hq; discriminate.
  - split; [simpl; intuition discriminate|]. split; [repeat split|].
    split; do 2 eexists; split; vm_compute; reflexivity.
Qed.

(** ** C46: false. The will of the second connection is published when the first one ends. *)
Theorem C46_live_will_refuted : exists es c d k x w' o,
  opened_by ex_open es d k /\ c <> d /\ declares k x /\ topic_name (wl_topic x) /\
  step ex_open (state ex_open es) (EEnd c) = (w', o) /\ o = [Closed c] /\ ~ not_served w' d /\
  exists m f, announces x m /\ sent_to w' f = sent_to (state ex_open es) f ++ [m] /\ matches f (wl_topic x)
    /\ exists j s, nth_error (w_heap (state ex_open es)) j = Some s /\ subscribed s f.
Proof.
  exists [ex_first 1 (ex_connect "s" true); ex_sub 1 "gone"; ex_first 2 (ex_connect "a" true); ex_first 3 (ex_connect_will "a" false "gone" "W")],
    2%nat, 3%nat, (ex_connect_will "a" false "gone" "W"), (Mk_will (str "gone") (str "W") AtMostOnce false). do 2 eexists.
  split. { exists [ex_first 1 (ex_connect "s" true); ex_sub 1 "gone"; ex_first 2 (ex_connect "a" true)], (str "uuid"), [].
    split; [reflexivity|]. split; [reflexivity|]. split; [left; reflexivity|].
    intros [|e1 p] q H; simpl in H; try discriminate H; vm_compute; discriminate. }
  split; [discriminate|]. split; [repeat split|]. split; [apply topic_name_gone|].
  split; [vm_compute; reflexivity|]. split; [reflexivity|]. split; [vm_compute; discriminate|].
  exists (Mk_message None (str "gone") false AtMostOnce false (Some (str "W"))), (str "gone").
  split; [repeat split|]. split; [vm_compute; reflexivity|].
  split; [match_tac|]. exists 0%nat. eexists. split; [vm_compute; reflexivity|]. left. reflexivity.
Qed.
Print Assumptions C46_live_will_refuted.
(** What holds, with the hypotheses of C45: as long as the connection is served, whatever is
    published is a PUBLISH or the will of another connection's session. *)
Theorem C46_live_will_partial cfg es1 c k u es2 e w' o :
  not_served (state cfg es1) c -> accepts cfg k -> presented k <> [] ->
  (cf_clean_start (c_flags k) = true \/ (alone cfg es1 (presented k) /\ ~ In ERestart es1)) ->
  ~ In ERestart es2 -> (forall x y z, ~ In (EFirst c x y z) es2) ->
  (forall d q v a, In (EFirst d (Some (Connect q)) v a) es2 -> presented q <> presented k) ->
  let w := state cfg (es1 ++ EFirst c (Some (Connect k)) u true :: es2) in
  e <> ERestart -> step cfg w e = (w', o) -> ~ not_served w' c -> (forall x y z, e <> EFirst c x y z) -> ~ nothing_routed w w' ->
  (exists d p, e = EPacket d (Publish p))
  \/ exists i d j s, aget Nat.eqb c (w_conns w) = Some i /\ d <> c /\ serves w d j s /\ j <> i /\ o = [Closed d] /\ not_served w' d
       /\ exists x, se_will s = Some x.
Proof.
  intros Hn Ha Hne Hcl Hre Hf Hp w He H Hlive Hfc Hrt.
  destruct (C45_nothing_else cfg w e w' o (state_reachable _ _) He H Hrt) as [(d & p & -> & _)|(d & j & s & x & A & B & C & D & _)]; [left; eauto|right].
  destruct (will_since_connect cfg es1 c k u es2 Hn Ha Hne Hcl Hre Hf Hp) as [(i & s0 & Hcu & Hsv & Hw)|Hx].
  - fold w in Hsv. fold w in Hcu. exists i, d, j, s. assert (d <> c) by (intros ->; contradiction). split; [apply Hsv|]. split; [assumption|]. split; [exact A|].
    split; [|eauto]. intros ->. destruct Hcu as [[_ U2 _] _]. destruct A as [A _]. apply U2 in A. contradiction.
  - fold w in Hx. exfalso. apply Hlive. destruct (step_conns _ _ _ _ _ c H) as [Hc|Hc]; auto. unfold not_served in *. congruence.
Qed.
Print Assumptions C46_live_will_partial.
Example C46_ex : let k := ex_connect_will "a" true "gone" "W" in
  let w := state ex_open ([ex_first 1 (ex_connect "s" true); ex_sub 1 "#"] ++ ex_first 2 k :: [ex_first 3 (ex_connect_will "b" true "bye" "X")]) in
  ~ not_served (fst (step ex_open w (EEnd 3))) 2 /\ length (sent_to (fst (step ex_open w (EEnd 3))) (str "#")) = 1%nat.
Proof. split; vm_compute; [discriminate|reflexivity]. Qed.

(** ** C47: false. *)
Theorem C47_one_connection_refuted : exists es c d k q i,
  c <> d /\ opened_by ex_open es c k /\ opened_by ex_open es d q /\ presented k = str "a" /\ presented q = str "a" /\
  (exists s, serves (state ex_open es) c i s) /\ exists s, serves (state ex_open es) d i s.
Proof.
  exists [ex_first 1 (ex_connect "a" false); ex_first 2 (ex_connect "a" false)], 1%nat, 2%nat, (ex_connect "a" false), (ex_connect "a" false), 0%nat.
  split; [discriminate|].
  split. { exists [], (str "uuid"). eexists. split; [reflexivity|]. split; [reflexivity|]. split; [left; reflexivity|].
    intros [|e [|e2 p]] q H; simpl in H; try discriminate H; try (injection H); intros; subst; vm_compute; discriminate. }
  split. { exists [ex_first 1 (ex_connect "a" false)], (str "uuid"), []. split; [reflexivity|]. split; [reflexivity|]. split; [left; reflexivity|].
    intros [|e p] q H; [vm_compute; discriminate|discriminate]. }
  split; [reflexivity|]. split; [reflexivity|]. split; eexists; split; vm_compute; reflexivity.
Qed.
Print Assumptions C47_one_connection_refuted.
(** In fact no first packet ever ends another connection, whoever sends it. *)
Theorem C47_connections_kept cfg w c x u a w' o d :
  reachable cfg w -> step cfg w (EFirst c x u a) = (w', o) -> d <> c ->
  aget Nat.eqb d (w_conns w') = aget Nat.eqb d (w_conns w) /\ forall y, In y o -> output_of d y = false.
Proof.
  intros Hr H Hd. pose proof (reachable_wf _ _ Hr) as Hwf. assert (Hdc : Nat.eqb c d = false) by (apply Nat.eqb_neq; auto).
  destruct (first_cases _ _ _ _ _ _ _ _ Hwf H) as [(-> & Ho)|[(q & i & subs & wl & infl & s & s1 & -> & -> & Hn & Ha & Hac)|(q & i & s & -> & -> & Hn & Ha & Hac)]].
  - split; [reflexivity|]. intros y Hy. destruct (is_some (aget Nat.eqb c (w_conns w))) eqn:Es.
    + simpl in H. rewrite Es in H. injection H as H. subst o. contradiction.
    + assert (Hn : not_served w c) by (unfold not_served; destruct (aget Nat.eqb c (w_conns w)); [discriminate|reflexivity]).
      assert (Hall : Forall (fun z => output_of c z = true) o).
      { simpl in H. rewrite Es in H. destruct x as [[]|]; try (injection H as <-; repeat constructor; simpl; apply Nat.eqb_refl).
        unfold connect_step in H. destruct (negb _); [injection H as <-; repeat constructor; simpl; apply Nat.eqb_refl|].
        destruct (start_session _ _ _ _) as [[ack r] w1]. destruct r as [r|]; [|injection H as _ <-; repeat constructor; simpl; apply Nat.eqb_refl].
        destruct (nth_error _ _); [|injection H as _ <-; repeat constructor; simpl; apply Nat.eqb_refl].
        destruct (restore_subscriptions _ _ _). injection H as _ <-. constructor; [apply Nat.eqb_refl|].
        apply Forall_forall. intros z Hz. apply in_map_iff in Hz. destruct Hz as (? & <- & _). apply Nat.eqb_refl. }
      rewrite Forall_forall in Hall. apply Hall in Hy. destruct y; simpl in *; apply Nat.eqb_eq in Hy; subst; exact Hdc.
  - destruct Hac as [_ _ Ho Hc _ _ _ _ _]. split; [rewrite Hc; apply aget_put_other; [apply nateqb_spec|auto]|].
    intros y Hy. rewrite Ho in Hy. destruct Hy as [<-|Hy]; [exact Hdc|]. apply in_map_iff in Hy. destruct Hy as (? & <- & _). exact Hdc.
  - destruct Hac. split; [congruence|]. intros y Hy. subst o. destruct Hy as [<-|[]]. exact Hdc.
Qed.
Print Assumptions C47_connections_kept.
Example C47_ex : let w := state ex_open [ex_first 1 (ex_connect "a" false)] in
  exists s, serves (fst (step ex_open w (ex_first 2 (ex_connect "a" true)))) 1 0 s.
Proof. eexists. split; vm_compute; reflexivity. Qed.

(** ** C64 *)
Theorem C64_isolation cfg es d q i s e w' o :
  opened_by cfg es d q -> serves (state cfg es) d i s -> e <> ERestart -> event_of d e = false ->
  (forall c k, event_of c e = true -> opened_by cfg es c k -> presented k <> presented q) ->
  (forall c k u a, e = EFirst c (Some (Connect k)) u a -> presented k <> presented q) ->
  step cfg (state cfg es) e = (w', o) -> serves w' d i s.
Proof.
  intros Ho Hs He Hev Hoth Hcon H. pose proof (state_wf cfg es) as Hwf. destruct (owned_exists cfg es) as [own [O1 O2 _]].
  destruct Hs as [Hd Hi]. destruct (O2 d i Hd) as (q' & Hq & Eq). rewrite (opened_unique _ _ _ _ _ Hq Ho) in Eq. clear Hq q'.
  assert (Hne : forall c, event_of c e = true -> aget Nat.eqb c (w_conns (state cfg es)) <> Some i).
  { intros c Hc Hx. destruct (O2 c i Hx) as (k & Hk & Ek). apply (Hoth c k Hc Hk). congruence. }
  split.
  - destruct (is_first e) as [Hnf|(c & k & u & a & ->)].
    + pose proof (step_inv _ _ _ _ _ H) as Hs.
      destruct Hs as [(-> & -> & Hid)|[(c&k&Ee&Hn&Hk&->&_)|[(c&k&u&a&->&Hn&Hc)|[(c&j&s0&x&->&[Hc Hj]&->&_)|[(c&j&s0&k&->&Hs&Hk&Hp)|[(c&j&s0&f&->&Hs&Hp)|[(c&j&s0&->&[Hc Hj]&->&_)|[(c&j&s0&->&[Hc Hj]&->&_)|(->&->&_)]]]]]]]]; auto;
        try (simpl in Hev; apply Nat.eqb_neq in Hev).
      * exfalso. eapply Hnf. reflexivity.
      * unfold disconnect_step. rewrite end_conns. simpl. rewrite aget_del_other by (try apply nateqb_spec; auto). exact Hd.
      * unfold packet_step in Hp. destruct (process_incoming _ _ _ _) as [[r s1] b1]. destruct r; injection Hp as <- _.
        -- destruct (is_subscription_change k), (inflight_completed k); exact Hd.
        -- rewrite end_conns. simpl. rewrite aget_del_other by (try apply nateqb_spec; auto). exact Hd.
        -- simpl. rewrite aget_del_other by (try apply nateqb_spec; auto). exact Hd.
      * unfold out_step in Hp. destruct (process_outgoing _ _ _) as [[r s1]|]; [|injection Hp as <- _; exact Hd]. destruct r; injection Hp as <- _.
        -- destruct (pb_packet_id a); [destruct (pb_qos a)|]; exact Hd.
        -- simpl. rewrite aget_del_other by (try apply nateqb_spec; auto). exact Hd.
        -- simpl. rewrite aget_del_other by (try apply nateqb_spec; auto). exact Hd.
      * rewrite end_conns. rewrite aget_del_other by (try apply nateqb_spec; auto). exact Hd.
      * simpl. rewrite aget_del_other by (try apply nateqb_spec; auto). exact Hd.
      * congruence.
    + simpl in Hev. apply Nat.eqb_neq in Hev.
      destruct (C47_connections_kept cfg (state cfg es) c k u a w' o d (state_reachable _ _) H) as [-> _]; auto.
  - rewrite (step_other_session cfg (state cfg es) e w' o i); auto.
    + eapply nth_error_lt; eauto.
    + intros c k ->. apply Hne. simpl. apply Nat.eqb_refl.
    + intros c k ->. apply Hne. simpl. apply Nat.eqb_refl.
    + intros c ->. apply Hne. simpl. apply Nat.eqb_refl.
    + intros id (c & k & u & a & -> & Hk) Hx. apply O1 in Hx. apply (Hcon _ _ _ _ eq_refl). unfold presented, client_id in *. congruence.
Qed.
Print Assumptions C64_isolation.
(** The same for what is stored under an identifier. *)
Theorem C64_stored_isolation cfg es d id e w' o :
  (forall c k, c <> d -> opened_by cfg es c k -> presented k <> id) ->
  (forall c k v a, connected cfg es c k v a -> presented k = [] -> v <> id) ->
  event_of d e = false -> avoids id e -> step cfg (state cfg es) e = (w', o) ->
  mem_load_session id (w_store w') = mem_load_session id (w_store (state cfg es))
  /\ mem_get_will id (w_store w') = mem_get_will id (w_store (state cfg es))
  /\ forall n, mem_get_inflight id n (w_store w') = mem_get_inflight id n (w_store (state cfg es)).
Proof.
  intros Ho Hc Hev Hav H. pose proof (state_wf cfg es) as Hwf. pose proof (served_under cfg es d id Ho Hc) as Hu.
  split; [|split].
  - destruct (stored_session_step _ _ _ _ _ _ Hwf Hav H) as [Hx|(c & k & i & s & -> & _ & Hs & Hid)]; auto.
    exfalso. rewrite (Hu _ _ _ Hs Hid) in Hev. simpl in Hev. rewrite Nat.eqb_refl in Hev. discriminate.
  - destruct (stored_will_step _ _ _ _ _ _ Hwf Hav H) as [Hx|(c & i & s & Hs & Hid & Hx & _)]; auto.
    exfalso. rewrite (Hu _ _ _ Hs Hid) in Hx. congruence.
  - intros n. destruct (stored_inflight_step _ _ _ _ _ id n Hwf H) as [Hx|[(c & k & i & s & -> & _ & Hs & Hid & _)|(c & f & i & s & q & -> & Hs & Hid & _)]]; auto;
      exfalso; rewrite (Hu _ _ _ Hs Hid) in Hev; simpl in Hev; rewrite Nat.eqb_refl in Hev; discriminate.
Qed.
Print Assumptions C64_stored_isolation.
Example C64_ex : let es := [ex_first 1 (ex_connect "a" false); ex_sub 1 "t"; ex_first 2 (ex_connect_will "b" true "gone" "W")] in
  (exists s, serves (state ex_open es) 1 0 s /\ subscribed s (str "t")) /\
  (exists s, serves (state ex_open es) 2 1 s) /\ event_of 1 (EEnd 2) = false
  /\ mem_load_session (str "a") (w_store (state ex_open es)) <> None.
Proof. split; [eexists; split; [split; vm_compute; reflexivity|left; reflexivity]|]. split; [eexists; split; vm_compute; reflexivity|]. split; [reflexivity|vm_compute; discriminate]. Qed.

(** ** C65: false. The topic of a will is never checked: with a wildcard in it the will goes
    twice to the subscribers of that filter, and to no subscriber of the topics it covers. *)
Theorem C65_will_topic_refuted : exists es c k x w' o,
  opened_by ex_open es c k /\ declares k x /\ ~ topic_name (wl_topic x) /\
  step ex_open (state ex_open es) (EEnd c) = (w', o) /\
  exists m, announces x m /\ sent_to w' (wl_topic x) = sent_to (state ex_open es) (wl_topic x) ++ [m; m]
    /\ exists j s, nth_error (w_heap (state ex_open es)) j = Some s /\ subscribed s (wl_topic x).
Proof.
  exists [ex_first 1 (ex_connect "s" true); ex_sub 1 "a/#"; ex_first 2 (ex_connect_will "a" true "a/#" "W")],
    2%nat, (ex_connect_will "a" true "a/#" "W"), (Mk_will (str "a/#") (str "W") AtMostOnce false). do 2 eexists.
  split. { exists [ex_first 1 (ex_connect "s" true); ex_sub 1 "a/#"], (str "uuid"), [].
    split; [reflexivity|]. split; [reflexivity|]. split; [left; reflexivity|].
    intros [|e1 p] q H; simpl in H; try discriminate H; vm_compute; discriminate. }
  split; [repeat split|]. split. { intros H. apply publish_topic_iff in H; [vm_compute in H; discriminate|apply utf8_valid_iff; vm_compute; reflexivity]. }
  split; [vm_compute; reflexivity|].
  exists (Mk_message None (str "a/#") false AtMostOnce false (Some (str "W"))).
  split; [repeat split|]. split; [vm_compute; reflexivity|]. exists 0%nat. eexists. split; [vm_compute; reflexivity|]. left. reflexivity.
Qed.
Print Assumptions C65_will_topic_refuted.
(** What holds: unless a connection with a will ends, only a PUBLISH on a valid topic is
    routed. *)
Theorem C65_routed_topics_partial cfg w e w' o :
  reachable cfg w -> e <> ERestart -> step cfg w e = (w', o) -> ~ nothing_routed w w' ->
  (forall c i s, serves w c i s -> o = [Closed c] -> se_will s = None) ->
  exists c p, e = EPacket c (Publish p) /\ (utf8 (pb_topic p) -> topic_name (pb_topic p)).
Proof.
  intros Hr He H Hno Hw. destruct (C45_nothing_else cfg w e w' o Hr He H Hno) as [(c & p & -> & Hs)|(c & i & s & x & A & B & _ & D & _)].
  2:{ rewrite (Hw _ _ _ A B) in D. discriminate. }
  exists c, p. split; [reflexivity|]. intros Hu. destruct (validate_publish_topic (pb_topic p)) eqn:Ev; [|apply publish_topic_iff; auto].
  exfalso. apply Hno. pose proof (reachable_wf _ _ Hr) as Hwf. unfold not_served in Hs.
  destruct (aget Nat.eqb c (w_conns w)) as [i|] eqn:Ec; [|congruence].
  destruct (nth_error (w_heap w) i) as [s|] eqn:Ei; [|apply nth_error_None in Ei; apply (proj2 Hwf) in Ec; lia].
  assert (Hsv : serves w c i s) by (split; auto).
  assert (Hnt : ~ topic_name (pb_topic p)) by (intros Ht; apply publish_topic_iff in Ht; auto; congruence).
  destruct (C34_invalid_topic_no_effect cfg w c i s p Hsv Hu Hnt) as [_ Ho]. rewrite H in Ho. cbn [snd] in Ho.
  intros q. rewrite (C34_nothing_published cfg w c i s p w' o Hsv Hu Hnt (Hw _ _ _ Hsv Ho) H). reflexivity.
Qed.
Print Assumptions C65_routed_topics_partial.
