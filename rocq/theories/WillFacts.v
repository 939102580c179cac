(** Wills: who has one, and what is published without a PUBLISH. *)
From Verif Require Import Base Utf8 Codec SpecCodec Tac Maps CodecFacts Topic SpecTopic TopicFacts Property PacketProps Packets
  TopicTree TreeFacts Storage SpecStorage StorageFacts Broker SpecBroker BrokerFacts Auth Session Server SpecServer SessionFacts ServerFacts
  HandlerFacts HistoryFacts ProvenanceFacts WorldFacts DeliveryFacts StoreFacts ConnectFacts ResumeFacts.

Lemma outgoing_will f s b r s' : process_outgoing f s b = Some (r, s') -> se_will s' = se_will s.
Proof.
  unfold process_outgoing. intros H. destruct (aget bytes_eqb f (se_subs s)) as [st|]; [|discriminate].
  destruct (stream_next _ st) as [[m st']|]; [|discriminate].
  repeat case_match; inv H; reflexivity.
Qed.

(** A served connection that is alone on its session keeps its will. *)
Lemma will_kept cfg w e w' o c i id s : wf w -> e <> ERestart -> ~ presents e id -> step cfg w e = (w', o) ->
  unshared w c i id -> serves w c i s ->
  (exists s', serves w' c i s' /\ se_will s' = se_will s) \/ not_served w' c.
Proof.
  intros Hwf He Hp H Hu Hs. pose proof (unshared_step _ _ _ _ _ _ _ _ Hwf He Hp H Hu) as [Hu'|Hn]; [left|auto].
  destruct Hu as [U1 U2 U3]. pose proof (us_conn _ _ _ _ Hu') as Hc'. destruct Hs as [_ Hi].
  assert (Hlt : (i < length (w_heap w))%nat) by (eapply nth_error_lt; eauto).
  assert (Hsame : nth_error (w_heap w') i = nth_error (w_heap w) i -> exists s', serves w' c i s' /\ se_will s' = se_will s).
  { intros Hx. exists s. split; [|reflexivity]. split; [exact Hc'|congruence]. }
  pose proof (step_inv _ _ _ _ _ H) as Hs.
  assert (Hpr : forall x, presents e x -> aget bytes_eqb x (w_manager w) <> Some i).
  { intros x Hx Hm. apply U3 in Hm. subst x. contradiction. }
  destruct Hs as [(-> & -> & Hid)|[(c0&k&Ee&Hn&Hk&->&_)|[(c0&k&u&a&->&Hn&Hc)|[(c0&j&s0&d&->&[Hc Hj]&->&_)|[(c0&j&s0&k&->&Hs&Hk&Hpk)|[(c0&j&s0&f&->&Hs&Hpk)|[(c0&j&s0&->&[Hc Hj]&->&_)|[(c0&j&s0&->&[Hc Hj]&->&_)|(->&_)]]]]]]]];
    [..|congruence]; auto.
  - apply Hsame. eapply step_other_session; eauto; intros; discriminate.
  - unfold disconnect_step in *. destruct (Nat.eqb_spec j i) as [->|Hji].
    + apply U2 in Hc. subst c0. rewrite end_conns in Hc'. simpl in Hc'. rewrite aget_del_same in Hc' by apply nateqb_spec. discriminate.
    + apply Hsame. rewrite end_heap_other by auto. apply put_other; auto.
  - destruct (Nat.eqb_spec j i) as [->|Hji].
    + destruct Hs as [Hc Hj]. apply U2 in Hc. subst c0. replace s0 with s in * by congruence.
      unfold packet_step in Hpk. destruct (process_incoming (sv_manager cfg) k s (w_broker w)) as [[r s1] b1] eqn:Ep.
      destruct (process_after _ _ _ _ _ _ _ Hk Ep) as [_ Hw].
      destruct r as [x|er|].
      * injection Hpk as Hpk _. exists s1. split; [|exact Hw]. split; [exact Hc'|]. rewrite <- Hpk.
        assert (Hq : nth_error (w_heap (put_session i s1 (set_broker b1 w))) i = Some s1) by (eapply put_same; simpl; eauto).
        destruct (is_subscription_change k), (inflight_completed k); exact Hq.
      * injection Hpk as <- _. rewrite end_conns in Hc'. simpl in Hc'. rewrite aget_del_same in Hc' by apply nateqb_spec. discriminate.
      * injection Hpk as <- _. simpl in Hc'. rewrite aget_del_same in Hc' by apply nateqb_spec. discriminate.
    + apply Hsame. destruct (packet_heap cfg c0 j s0 k w w' o Hwf Hs Hk Hpk) as (_ & Hx & _). apply Hx. auto.
  - destruct (Nat.eqb_spec j i) as [->|Hji].
    + destruct Hs as [Hc Hj]. apply U2 in Hc. subst c0. replace s0 with s in * by congruence.
      unfold out_step in Hpk. destruct (process_outgoing f s (w_broker w)) as [[r s1]|] eqn:Ep.
      2:{ injection Hpk as <- <-. auto. }
      pose proof (outgoing_will _ _ _ _ _ Ep) as Hw.
      assert (Hq : nth_error (w_heap (put_session i s1 w)) i = Some s1) by (eapply put_same; simpl; eauto).
      destruct r as [x|er|].
      * injection Hpk as Hpk _. exists s1. split; [|exact Hw]. split; [exact Hc'|]. rewrite <- Hpk.
        destruct (pb_packet_id x); [destruct (pb_qos x)|]; exact Hq.
      * injection Hpk as <- _. simpl in Hc'. rewrite aget_del_same in Hc' by apply nateqb_spec. discriminate.
      * injection Hpk as <- _. simpl in Hc'. rewrite aget_del_same in Hc' by apply nateqb_spec. discriminate.
    + apply Hsame. destruct (out_heap (sv_manager cfg) c0 j s0 f w w' o Hwf Hs Hpk) as (_ & Hx & _). apply Hx. auto.
  - destruct (Nat.eqb_spec j i) as [->|Hji].
    + apply U2 in Hc. subst c0. rewrite end_conns in Hc'. rewrite aget_del_same in Hc' by apply nateqb_spec. discriminate.
    + apply Hsame. rewrite end_heap_other; auto.
Qed.

Lemma not_served_run cfg c es : forall w, (forall k u a, ~ In (EFirst c k u a) es) -> not_served w c -> not_served (fst (run cfg es w)) c.
Proof.
  induction es as [|x es IH]; intros w1 Hf Hn; [exact Hn|]. rewrite run_cons. cbn [fst].
  destruct (step cfg w1 x) as [w2 o2] eqn:E2. cbn [fst]. apply IH; [intros k u a Hi; apply (Hf k u a); right; exact Hi|].
  destruct (step_conns _ _ _ _ _ c E2) as [Hc|Hc]; auto; [intros k u a ->; apply (Hf k u a); left; reflexivity|]. unfold not_served in *. congruence.
Qed.
Lemma will_run cfg es : forall w c i id s, wf w -> current w c i id -> serves w c i s -> ~ In ERestart es ->
  (forall k u a, ~ In (EFirst c k u a) es) -> (forall e, In e es -> ~ presents e id) ->
  (current (fst (run cfg es w)) c i id /\ exists s', serves (fst (run cfg es w)) c i s' /\ se_will s' = se_will s)
  \/ not_served (fst (run cfg es w)) c.
Proof.
  induction es as [|e es IH]; intros w c i id s Hwf Hcu Hs Hre Hf Hp; [left; eauto|].
  rewrite run_cons. cbn [fst]. destruct (step cfg w e) as [w1 o1] eqn:E. cbn [fst].
  assert (He : e <> ERestart) by (intros ->; apply Hre; left; reflexivity).
  assert (Hpe : ~ presents e id) by (apply Hp; left; reflexivity).
  pose proof (step_wf _ _ _ _ _ Hwf E) as Hwf1. destruct Hcu as [Hu Hm].
  assert (Hre' : ~ In ERestart es) by (intros Hi; apply Hre; right; exact Hi).
  assert (Hf' : forall k u a, ~ In (EFirst c k u a) es) by (intros k u a Hi; apply (Hf k u a); right; exact Hi).
  assert (Hp' : forall e, In e es -> ~ presents e id) by (intros x Hx; apply Hp; right; exact Hx).
  destruct (will_kept _ _ _ _ _ _ _ _ _ Hwf He Hpe E Hu Hs) as [(s1 & Hs1 & Hw1)|Hn].
  - destruct (unshared_step _ _ _ _ _ _ _ _ Hwf He Hpe E Hu) as [Hu1|Hn]; [|destruct Hs1; unfold not_served in Hn; congruence].
    assert (Hcu1 : current w1 c i id).
    { split; auto. rewrite <- Hm. apply (manager_keep cfg w e w1 o1 id Hwf He Hpe E). }
    destruct (IH w1 c i id s1 Hwf1 Hcu1 Hs1 Hre' Hf' Hp') as [(A & s2 & B & C)|Hn]; [left|auto].
    split; auto. exists s2. split; auto. congruence.
  - right. apply not_served_run; auto.
Qed.

(** The will after an accepted CONNECT. *)
Lemma accepted_will cfg c k u w w' o i subs wl infl s s1 : accepted cfg c k u w w' o i subs wl infl s s1 ->
  exists s', serves w' c i s' /\ se_will s' = match wl with Some x => Some x | None => will_of_connect k end.
Proof.
  intros Hac. eexists. split; [split; [rewrite (ac_conns _ _ _ _ _ _ _ _ _ _ _ _ _ Hac); apply aget_put_same, nateqb_spec|exact (ac_session _ _ _ _ _ _ _ _ _ _ _ _ _ Hac)]|].
  destruct wl as [x|]; [reflexivity|]. destruct (ac_restore _ _ _ _ _ _ _ _ _ _ _ _ _ Hac) as (b0 & _ & _ & Hr).
  destruct (restore_spec _ _ _ _ _ Hr) as (_ & _ & _ & _ & _ & _ & _ & Hsame).
  rewrite (proj1 (proj2 (proj2 (proj2 (proj2 Hsame))))), begin_will. apply (entered_will _ _ _ _ _ _ _ (ac_entered _ _ _ _ _ _ _ _ _ _ _ _ _ Hac)).
Qed.

(** The message a will is published as, to every subscription that matches. *)
Lemma will_routes h w w' x : prov h w -> topic_name (wl_topic x) ->
  bk_tree (w_broker w') = bk_tree (broker_run (will_ops (Some x)) (w_broker w)) -> routes (wl_topic x) (will_message x) w w'.
Proof.
  intros Hp Ht Hl j s f Hj Hsub. unfold sent_to. rewrite Hl. unfold broker_run. simpl.
  rewrite subscribed_aget in Hsub. destruct (aget bytes_eqb f (se_subs s)) as [st|] eqn:E; [|congruence].
  destruct (pv_subs h w Hp j s f st Hj E) as (_ & Hn & _).
  rewrite route_log by (auto using topic_name_plain). destruct (matches_dec f (wl_topic x)); [left|right]; auto.
  rewrite app_nil_r. auto.
Qed.

(** ** No will comes out of the store unless the broker was restarted *)
Lemma manager_used cfg es c k u a : connected cfg es c k u a -> ~ In ERestart es -> aget bytes_eqb (presented k) (w_manager (state cfg es)) <> None.
Proof.
  intros (es1 & es2 & -> & Hn & Ha) Hre.
  assert (H1 : aget bytes_eqb (presented k) (w_manager (state cfg (es1 ++ [EFirst c (Some (Connect k)) u a]))) <> None).
  { pose proof (state_wf cfg es1) as Hwf. apply authenticated_iff in Ha. rewrite state_snoc.
    destruct (step cfg (state cfg es1) (EFirst c (Some (Connect k)) u a)) as [w1 o1] eqn:E. cbn [fst].
    assert (Hg : forall i, w_manager w1 = aput bytes_eqb (client_id k) i (if cf_clean_start (c_flags k) then adel bytes_eqb (client_id k) (w_manager (state cfg es1)) else w_manager (state cfg es1)) ->
       aget bytes_eqb (presented k) (w_manager w1) <> None).
    { intros i ->. change (presented k) with (client_id k). rewrite aget_put_same by apply beqb_spec. discriminate. }
    destruct a.
    - destruct (connect_accept _ _ _ _ _ _ _ Hwf Hn Ha E) as (i & subs & wl & infl & s & s1 & Hac). destruct Hac. eauto.
    - destruct (connect_unwritten _ _ _ _ _ _ _ Hwf Hn Ha E) as (i & s & Hac). destruct Hac. eauto. }
  rewrite state_connect. pose proof (state_wf cfg (es1 ++ [EFirst c (Some (Connect k)) u a])) as Hwf.
  assert (Hre2 : ~ In ERestart es2) by (intros Hi; apply Hre, in_or_app; right; right; exact Hi). clear - H1 Hre2 Hwf.
  revert H1 Hwf. generalize (state cfg (es1 ++ [EFirst c (Some (Connect k)) u a])). generalize (presented k). intros id.
  induction es2 as [|e es IH]; intros w Hm Hwf; [exact Hm|]. rewrite run_cons. cbn [fst].
  destruct (step cfg w e) as [w1 o1] eqn:E. cbn [fst].
  assert (He : e <> ERestart) by (intros ->; apply Hre2; left; reflexivity).
  apply IH; [intros Hi; apply Hre2; right; exact Hi| |eapply step_wf; eauto].
  destruct (is_first e) as [Hnf|(d & q & v & a' & ->)].
  { destruct (step_manager _ _ _ _ _ He Hnf E) as (-> & _). exact Hm. }
  assert (Hg : forall q i, w_manager w1 = aput bytes_eqb (client_id q) i (if cf_clean_start (c_flags q) then adel bytes_eqb (client_id q) (w_manager w) else w_manager w) ->
       aget bytes_eqb id (w_manager w1) <> None).
  { intros q0 i ->. rewrite aget_aput by apply beqb_spec. destruct (bytes_eqb id (client_id q0)) eqn:Eb; [discriminate|].
    destruct (cf_clean_start (c_flags q0)); auto. rewrite aget_adel by apply beqb_spec. rewrite Eb. exact Hm. }
  destruct (first_cases _ _ _ _ _ _ _ _ Hwf E) as [(-> & _)|[(q0 & i & subs & wl & infl & s & s1 & -> & -> & Hn & Ha & Hac)|(q0 & i & s & -> & -> & Hn & Ha & Hac)]]; auto;
    destruct Hac; eauto.
Qed.

Lemma no_stored_will cfg es c k u w' o i subs wl infl s s1 : accepted cfg c k u (state cfg es) w' o i subs wl infl s s1 ->
  presented k <> [] -> (cf_clean_start (c_flags k) = true \/ (alone cfg es (presented k) /\ ~ In ERestart es)) -> wl = None.
Proof.
  intros Hac Hne Hor. pose proof (ac_entered _ _ _ _ _ _ _ _ _ _ _ _ _ Hac) as Hen.
  inversion Hen as [s0 Hc Hx Hi|? ? ? Hl Hm Hcl Hnc]; subst; auto.
  destruct (cf_clean_start (c_flags k)) eqn:Ec; [apply Hcl; reflexivity|]. destruct Hor as [Hor|[[_ Hal] Hre]]; [discriminate|].
  destruct Hm as [Hm|Hm]; [discriminate|]. destruct (Hnc eq_refl) as (_ & -> & _).
  destruct (mem_load_session (cl_client_id (c_payload k)) (w_store (state cfg es))) eqn:El; [|reflexivity]. exfalso.
  destruct (us_store _ _ (used_all cfg es) (cl_client_id (c_payload k))) as (d & q & v & a & Hcon & Hid); [congruence|].
  unfold identifier in Hid. destruct (presented q) eqn:Ep.
  - apply (Hal _ _ _ _ Hcon Ep). exact Hid.
  - apply (manager_used _ _ _ _ _ _ Hcon Hre). rewrite Ep, Hid. exact Hm.
Qed.

(** A client's connection from its CONNECT on. *)
Lemma will_since_connect cfg es1 c k u es2 : not_served (state cfg es1) c -> accepts cfg k -> presented k <> [] ->
  (cf_clean_start (c_flags k) = true \/ (alone cfg es1 (presented k) /\ ~ In ERestart es1)) ->
  ~ In ERestart es2 -> (forall x y z, ~ In (EFirst c x y z) es2) ->
  (forall d q v a, In (EFirst d (Some (Connect q)) v a) es2 -> presented q <> presented k) ->
  let w := state cfg (es1 ++ EFirst c (Some (Connect k)) u true :: es2) in
  (exists i s, current w c i (presented k) /\ serves w c i s /\ se_will s = will_of_connect k) \/ not_served w c.
Proof.
  intros Hn Ha Hne Hcl Hre Hf Hp w. pose proof (state_wf cfg es1) as Hwf. apply authenticated_iff in Ha.
  destruct (step cfg (state cfg es1) (EFirst c (Some (Connect k)) u true)) as [w1 o1] eqn:E1.
  destruct (connect_accept _ _ _ _ _ _ _ Hwf Hn Ha E1) as (i & subs & wl & infl & s0 & s1 & Hac).
  assert (Hcu : current w1 c i (presented k)).
  { eapply current_connect; eauto. destruct Hcl as [Hcl|[[Hal _] _]]; auto. }
  pose proof (no_stored_will _ _ _ _ _ _ _ _ _ _ _ _ _ Hac Hne Hcl) as ->.
  destruct (accepted_will _ _ _ _ _ _ _ _ _ _ _ _ _ Hac) as (s & Hs & Hw).
  assert (Hww : w = fst (run cfg es2 w1)) by (unfold w; rewrite state_connect, state_snoc, E1; reflexivity). rewrite Hww.
  destruct (will_run cfg es2 w1 c i (presented k) s) as [(A & s' & B & C)|Hx]; auto.
  - eapply step_wf; eauto.
  - intros e He (d & q & v & a & -> & Hq). apply (Hp _ _ _ _ He). exact Hq.
  - left. exists i, s'. split; auto. split; auto. congruence.
Qed.

Lemma subs_log fs : forall b q, log_at q (bk_tree (broker_run (map BSub fs) b)) = log_at q (bk_tree b).
Proof.
  induction fs as [|f fs IH]; intros b q; [reflexivity|]. change (broker_run (map BSub (f :: fs)) b) with (broker_run (map BSub fs) (snd (broker_subscribe f b))).
  rewrite IH. apply log_at_subscribe.
Qed.
Lemma publish_dec k : (exists p, k = Publish p) \/ (forall p, k <> Publish p).
Proof. destruct k; (left; eexists; reflexivity) || (right; discriminate). Qed.
Lemma disconnect_dec k : (exists p, k = Disconnect p) \/ (forall p, k <> Disconnect p).
Proof. destruct k; (left; eexists; reflexivity) || (right; discriminate). Qed.

(** The stored will of [id] changes only when a connection served under [id] ends. *)
Lemma connect_wills k subs s w : ms_wills (connect_store k subs s w) =
  let l := if cf_clean_start (c_flags k) then adel bytes_eqb (client_id k) (ms_wills (w_store w)) else ms_wills (w_store w) in
  match se_will s with Some x => aput bytes_eqb (se_client_id s) x l | None => l end.
Proof. unfold connect_store, client_id. destruct (se_will s), (cf_clean_start (c_flags k)); reflexivity. Qed.
Lemma stored_will_step cfg w e w' o id : wf w -> avoids id e -> step cfg w e = (w', o) ->
  mem_get_will id (w_store w') = mem_get_will id (w_store w)
  \/ exists c i s, serves w c i s /\ se_client_id s = id /\ event_of c e = true /\ not_served w' c.
Proof.
  intros Hwf [He Hav] H. unfold mem_get_will. pose proof (step_inv _ _ _ _ _ H) as Hs.
  assert (Hend : forall c i s (v : world), serves w c i s -> event_of c e = true -> ms_wills (w_store v) = adel bytes_eqb (se_client_id s) (ms_wills (w_store w)) ->
    not_served v c -> v = w' ->
    aget bytes_eqb id (ms_wills (w_store w')) = aget bytes_eqb id (ms_wills (w_store w))
    \/ exists c i s, serves w c i s /\ se_client_id s = id /\ event_of c e = true /\ not_served w' c).
  { intros c i s v Hsv Hev Hd Hn <-. rewrite Hd, aget_adel by apply beqb_spec. destruct (bytes_eqb id (se_client_id s)) eqn:Eb; [|auto].
    right. apply beqb_spec in Eb. exists c, i, s. auto. }
  destruct Hs as [(-> & -> & Hid)|[(c&k&Ee&Hn&Hk&->&_)|[(c&k&u&a&->&Hn&Hc)|[(c&i&s&d&->&[Hc Hi]&->&_)|[(c&i&s&k&->&Hs&Hk&Hp)|[(c&i&s&f&->&Hs&Hp)|[(c&i&s&->&[Hc Hi]&->&_)|[(c&i&s&->&[Hc Hi]&->&_)|(->&->&_)]]]]]]]]; auto.
  - left. destruct (Hav _ _ _ _ eq_refl) as [A1 A2].
    destruct (first_cases _ _ _ _ _ _ _ _ Hwf H) as [(-> & _)|[(q & i & subs & wl & infl & s & s1 & Eq & -> & _ & Ha & Hac)|(q & i & s & Eq & -> & _ & Ha & Hac)]]; auto;
      injection Eq as <-.
    + rewrite (ac_store _ _ _ _ _ _ _ _ _ _ _ _ _ Hac), connect_wills. cbv zeta.
      destruct (accepted_id _ _ _ _ _ _ _ _ _ _ _ _ _ Hac) as [_ Hfi].
      assert (Hl : aget bytes_eqb id (if cf_clean_start (c_flags k) then adel bytes_eqb (client_id k) (ms_wills (w_store w)) else ms_wills (w_store w)) = aget bytes_eqb id (ms_wills (w_store w))).
      { destruct (cf_clean_start (c_flags k)); auto. apply aget_del_other; [apply beqb_spec|]. intros E. apply A1. symmetry. exact E. }
      destruct (se_will (snd (begin u (resumes k w) s))); auto. rewrite aget_put_other; auto; [apply beqb_spec|].
      rewrite Hfi. intros E. apply A2. symmetry. exact E.
    + rewrite (un_store _ _ _ _ _ _ _ _ Hac).
      destruct (cf_clean_start (c_flags k)); auto. apply aget_del_other; [apply beqb_spec|]. intros E. apply A1. symmetry. exact E.
  - assert (Hx : nth_error (w_heap (put_session i (set_will None s) w)) i = Some (set_will None s)) by (eapply put_same; eauto).
    apply (Hend c i s (disconnect_step c i s w)); auto; [split; auto|simpl; apply Nat.eqb_refl| |unfold not_served, disconnect_step; rewrite end_conns; apply aget_del_same, nateqb_spec].
    unfold disconnect_step.
    destruct (end_store c i (set_store (mem_delete_will (se_client_id s) (w_store (put_session i (set_will None s) w)))
       (put_session i (set_will None s) w)) _ Hx) as (_ & _ & H1). rewrite H1. reflexivity.
  - unfold packet_step in Hp.
    destruct (process_incoming (sv_manager cfg) k s (w_broker w)) as [[r s1] b1] eqn:Ep.
    destruct (process_store _ _ _ _ _ _ _ Ep) as (P1 & P2 & P3 & P4).
    assert (Hi1 : nth_error (w_heap (put_session i s1 (set_broker b1 w))) i = Some s1) by (eapply put_same; simpl; apply Hs).
    destruct r as [x|er|].
    + left. injection Hp as Hp _. assert (Hr : forall p m, ms_wills (mem_remove_inflight (se_client_id s1) p m) = ms_wills m)
        by (intros p m; unfold mem_remove_inflight; destruct (aget bytes_eqb (se_client_id s1) (ms_inflight m)); reflexivity).
      change (ms_wills (w_store w)) with (ms_wills (bk_store (w_broker w))). rewrite <- P2, <- Hp. destruct (is_subscription_change k), (inflight_completed k); unfold w_store at 1; cbn [w_broker set_store set_broker bk_store]; rewrite ?Hr; reflexivity.
    + injection Hp as Hp _. destruct (end_store c i _ _ Hi1) as (_ & _ & H1). destruct (se_will s1) eqn:Ew.
      * apply (Hend c i s w'); auto; [simpl; apply Nat.eqb_refl| |].
        -- rewrite <- Hp, H1, P4. change (ms_wills (w_store w)) with (ms_wills (bk_store (w_broker w))). rewrite <- P2. reflexivity.
        -- rewrite <- Hp. unfold not_served. rewrite end_conns. apply aget_del_same, nateqb_spec.
      * left. rewrite <- Hp, H1. change (ms_wills (w_store w)) with (ms_wills (bk_store (w_broker w))). rewrite <- P2. reflexivity.
    + injection Hp as <- <-. left. change (ms_wills (w_store w)) with (ms_wills (bk_store (w_broker w))). rewrite <- P2. reflexivity.
  - left. unfold out_step in Hp. destruct (process_outgoing f s (w_broker w)) as [[r s1]|]; [|inv Hp; auto].
    destruct r as [p|er|]; injection Hp as <- <-; try reflexivity.
    destruct (pb_packet_id p); [destruct (pb_qos p)|]; reflexivity.
  - destruct (end_store c i w s Hi) as (_ & _ & H1). destruct (se_will s) eqn:Ew.
    + apply (Hend c i s (end_connection c i w)); auto; [split; auto|simpl; apply Nat.eqb_refl|].
      unfold not_served. rewrite end_conns. apply aget_del_same, nateqb_spec.
    + left. rewrite H1. reflexivity.
Qed.

(** ** Isolation *)
Lemma opened_unique cfg es c k k' : opened_by cfg es c k -> opened_by cfg es c k' -> k = k'.
Proof.
  intros (a & u & b & -> & Hn & _ & Hs) (a' & u' & b' & E & Hn' & _ & Hs').
  apply app_eq_app in E. destruct E as (l & [[-> E]|[-> E]]).
  - destruct l as [|x l]; [simpl in E; congruence|]. simpl in E. injection E as <- E. exfalso.
    apply (Hs' l (EFirst c (Some (Connect k)) u true :: b)); auto.
  - destruct l as [|x l]; [simpl in E; congruence|]. simpl in E. injection E as <- E. exfalso.
    apply (Hs l (EFirst c (Some (Connect k')) u' true :: b')); auto.
Qed.
Lemma served_under cfg es d id : (forall c k, c <> d -> opened_by cfg es c k -> presented k <> id) ->
  (forall c k v a, connected cfg es c k v a -> presented k = [] -> v <> id) ->
  forall c i s, serves (state cfg es) c i s -> se_client_id s = id -> c = d.
Proof.
  intros Ho Hc c i s [H1 H2] Hid. destruct (owned_exists cfg es) as [own [_ O2 O3]].
  destruct (O2 c i H1) as (k & Hk & Ek). destruct (O3 i s H2) as (c' & k' & u & a & Hk' & Ek' & Ei).
  destruct (Nat.eq_dec c d) as [|Hne]; auto. exfalso. unfold identifier in Ei. destruct (presented k') eqn:Ep.
  - apply (Hc _ _ _ _ Hk' Ep). congruence.
  - apply (Ho c k Hne Hk). congruence.
Qed.
