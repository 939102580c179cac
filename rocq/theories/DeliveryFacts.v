(** Order of the messages delivered for one subscription of a connection. *)
From Verif Require Import Base Utf8 Codec SpecCodec Tac Maps CodecFacts Topic SpecTopic TopicFacts Property PacketProps Packets
  TopicTree TreeFacts Storage SpecStorage StorageFacts Broker SpecBroker BrokerFacts Auth Session Server SpecServer SessionFacts
  ServerFacts HandlerFacts HistoryFacts ProvenanceFacts WorldFacts.

(** ** Logs only grow *)
Lemma ops_log_grows ops : forall b q, exists more, log_at q (bk_tree (broker_run ops b)) = log_at q (bk_tree b) ++ more.
Proof.
  induction ops as [|o ops IH]; intros b q; [exists []; rewrite app_nil_r; reflexivity|].
  destruct (IH (broker_step b o) q) as [more Hm]. unfold broker_run in *. simpl. rewrite Hm.
  destruct o as [f|t m]; simpl.
  - rewrite log_at_subscribe. eauto.
  - rewrite publish_route_eq, log_at_sends.
    + rewrite <- app_assoc. eauto.
    + apply Forall_forall. intros p Hp. apply dests_sound in Hp. apply Hp.
Qed.
Lemma step_log_grows cfg w e w' o q : wf w -> e <> ERestart -> step cfg w e = (w', o) ->
  exists more, log_at q (bk_tree (w_broker w')) = log_at q (bk_tree (w_broker w)) ++ more.
Proof. intros Hwf He H. destruct (step_after cfg w e w' o Hwf He H) as [-> _]. apply ops_log_grows. Qed.

Lemma deliveries_app c f o1 o2 : deliveries c f (o1 ++ o2) = deliveries c f o1 ++ deliveries c f o2.
Proof.
  induction o1 as [|x o1 IH]; simpl; auto. destruct x as [d [] |d|d]; auto.
  destruct (Nat.eqb d c); auto. destruct (bytes_eqb (pb_topic b) f); simpl; [f_equal|]; auto.
Qed.
Lemma deliveries_none c f o : (forall q, In (Sent c (Publish q)) o -> pb_topic q <> f) -> deliveries c f o = [].
Proof.
  induction o as [|x o IH]; simpl; intros H; auto.
  destruct x as [d [] |d|d]; try (apply IH; intros q Hq; apply H; right; exact Hq).
  destruct (Nat.eqb d c) eqn:E; [|apply IH; intros q Hq; apply H; right; exact Hq].
  apply Nat.eqb_eq in E. subst d.
  destruct (bytes_eqb (pb_topic b) f) eqn:Ef; [|apply IH; intros q Hq; apply H; right; exact Hq].
  apply beqb_spec in Ef. exfalso. eapply H; eauto.
Qed.

(** Subscribing to or unsubscribing from [f] on connection [c]. *)
Definition resubscribes (c : nat) (f : bytes) (e : event) : Prop :=
  (exists p, e = EPacket c (Subscribe p) /\ In f (map fst (sb_payload p)))
  \/ (exists p, e = EPacket c (Unsubscribe p) /\ In f (us_payload p)).
Definition first_on (c : nat) (e : event) : Prop := exists k u a, e = EFirst c k u a.

(** Packets of connection [c] that do not mention [f] keep its stream. *)
Lemma packet_stream am k s b r s' b' f st : process_incoming am k s b = (r, s', b') ->
  (forall p, k = Subscribe p -> ~ In f (map fst (sb_payload p))) ->
  (forall p, k = Unsubscribe p -> ~ In f (us_payload p)) ->
  subscription s f st -> subscription s' f st.
Proof.
  unfold subscription. intros H H1 H2 Hs. destruct k; simpl in H; try (injection H as <- <- <-; exact Hs).
  - unfold handle_publish in H. destruct (validate_publish_topic _); [inv H; auto|].
    destruct (pb_qos _); [|destruct (pb_packet_id _)|destruct (pb_packet_id _)|]; injection H as <- <- <-; exact Hs.
  - unfold handle_subscribe in H. destruct (subscribe_loop _ _ _) as [[rs subs] bb] eqn:E. injection H as <- <- <-. simpl.
    destruct (subscribe_loop_spec _ _ _ _ _ _ E) as (_ & _ & Hk & _). rewrite Hk; auto.
    intros [Hin _]. eapply H1; eauto.
  - unfold handle_unsubscribe in H. destruct (unsubscribe_loop _ _) as [rs subs] eqn:E. injection H as <- <- <-. simpl.
    destruct (unsubscribe_loop_spec _ _ _ _ E) as (_ & _ & _ & Hk & _). rewrite Hk; [exact Hs|eapply H2; eauto].
  - destruct (handle_auth am a s) as [r1 s1] eqn:E. injection H as <- <- <-. unfold handle_auth in E.
    assert (Hse : se_subs s1 = se_subs s); [|rewrite Hse; exact Hs].
    destruct am as [am|]; [|inv E; auto]. destruct (au_reason a); try (inv E; auto; fail).
    + destruct (se_auth s); [|inv E; auto]. destruct (aup_auth_data _); [|inv E; auto].
      destruct (continue_auth _ _ _); inv E; auto.
    + destruct (aup_auth_method _); [|inv E; auto]. destruct (supports_method _ _); simpl in E; [|inv E; auto].
      destruct (start_auth _ _ _); inv E; auto.
Qed.

(** The stream of [f] after a step, and what was delivered by it. *)
Lemma step_stream cfg w e w' o c i id s f st : wf w -> e <> ERestart -> ~ presents e id -> ~ resubscribes c f e -> ~ first_on c e ->
  step cfg w e = (w', o) -> unshared w c i id -> serves w c i s -> subscription s f st ->
  (exists s' st', nth_error (w_heap w') i = Some s' /\ subscription s' f st' /\
     ((st' = st /\ deliveries c f o = [])
      \/ (exists m q, stream_next (sent_to w f) st = Some (m, st') /\ deliveries c f o = [q] /\ sent_as f q m /\ sent_to w' f = sent_to w f)))
  \/ (deliveries c f o = [] /\ not_served w' c).
Proof.
  intros Hwf He Hp Hr Hf H U Hs Hsub.
  assert (Hlt : (i < length (w_heap w))%nat) by (eapply nth_error_lt; apply Hs).
  assert (Hdec : (exists k, e = EPacket c k) \/ (exists g, e = EOut c g) \/ e = EEnd c \/
    ((forall k, e <> EPacket c k) /\ (forall g, e <> EOut c g) /\ e <> EEnd c)).
  { destruct e as [d k u a|d k|d g|d|d|]; try (destruct (Nat.eq_dec d c) as [->|Hne]); eauto;
      right; right; right; repeat split; intros; congruence. }
  destruct Hdec as [[k ->]|[[g ->]|[->|(N1 & N2 & N3)]]].
  - assert (Hd : deliveries c f o = []).
    { apply deliveries_none. intros q Hq. destruct (step_sent_publish _ _ _ _ _ _ _ H Hq) as [(k0 & u & a & E)|(? & ? & ? & E & _)]; discriminate. }
    rewrite Hd. assert (Hk : (exists d, k = Disconnect d) \/ forall d, k <> Disconnect d).
    { destruct k; eauto; right; discriminate. }
    destruct Hk as [[d ->]|Hk].
    + right. split; auto. rewrite (step_disconnect _ _ _ i s) in H by auto. inv H.
      unfold disconnect_step, not_served. rewrite end_conns. apply aget_del_same, nateqb_spec.
    + rewrite (step_packet _ _ _ i s) in H by auto.
      unfold packet_step in H. destruct (process_incoming _ _ _ _) as [[r s1] b1] eqn:Ep.
      assert (Hs1 : subscription s1 f st).
      { eapply packet_stream; eauto; intros p -> Hin; apply Hr; [left|right]; eauto. }
      destruct Hs as [Hc Hi]. destruct r as [x|er|]; inv H.
      * left. exists s1, st. split; [|auto].
        assert (Hh : nth_error (w_heap (put_session i s1 (set_broker b1 w))) i = Some s1) by (eapply put_same; simpl; eauto).
        destruct (is_subscription_change k), (inflight_completed k); exact Hh.
      * right. split; auto. unfold not_served. rewrite end_conns. apply aget_del_same, nateqb_spec.
      * right. split; auto. unfold not_served. apply aget_del_same, nateqb_spec.
  - rewrite (step_out _ _ _ i s) in H by auto. unfold out_step in H. destruct Hs as [Hc Hi].
    unfold process_outgoing in H. destruct (aget bytes_eqb g (se_subs s)) as [st0|] eqn:Eg.
    2:{ inv H. left. exists s, st. auto. }
    destruct (stream_next (log_at (levels g) (bk_tree (w_broker w))) st0) as [[m st1]|] eqn:En.
    2:{ inv H. left. exists s, st. auto. }
    set (s1 := set_subs (aput bytes_eqb g st1 (se_subs s)) s) in *.
    assert (Hfin : forall p s2 w2, p = outgoing_publish g m -> se_subs s2 = se_subs s1 ->
      w_heap w2 = w_heap (put_session i s2 w) -> bk_tree (w_broker w2) = bk_tree (w_broker w) -> o = [Sent c (Publish p)] ->
      exists s' st', nth_error (w_heap w2) i = Some s' /\ subscription s' f st' /\
     ((st' = st /\ deliveries c f o = [])
      \/ (exists m q, stream_next (sent_to w f) st = Some (m, st') /\ deliveries c f o = [q] /\ sent_as f q m /\ sent_to w2 f = sent_to w f))).
    { intros p s2 w2 -> Hss Hh Hb ->. exists s2. destruct (bytes_eqb g f) eqn:Egf.
      - apply beqb_spec in Egf. subst g. red in Hsub. rewrite Hsub in Eg. injection Eg as <-.
        exists st1. split; [rewrite Hh; eapply put_same; eauto|]. split.
        + red. rewrite Hss. simpl. apply aget_put_same, beqb_spec.
        + right. exists m, (outgoing_publish f m). split; [exact En|]. simpl. rewrite Nat.eqb_refl, bytes_eqb_refl.
          split; auto. split; [repeat split|]. unfold sent_to. rewrite Hb. reflexivity.
      - exists st. split; [rewrite Hh; eapply put_same; eauto|]. split.
        + red. rewrite Hss. simpl. rewrite aget_put_other; [exact Hsub|apply beqb_spec|].
          intros ->. rewrite bytes_eqb_refl in Egf. discriminate.
        + left. split; auto. simpl. rewrite Nat.eqb_refl, Egf. reflexivity. }
    destruct (mg_packet_id m) as [pid|] eqn:Epid.
    + destruct (mg_qos m) eqn:Eq; simpl in H; rewrite ?Epid, ?Eq in H.
      * inv H. left. eapply Hfin; reflexivity.
      * inv H. left. eapply Hfin; [reflexivity| |reflexivity|reflexivity|reflexivity]; reflexivity.
      * inv H. left. eapply Hfin; [reflexivity| |reflexivity|reflexivity|reflexivity]; reflexivity.
      * inv H. right. split; [reflexivity|]. unfold not_served. simpl. apply aget_del_same, nateqb_spec.
    + simpl in H. rewrite Epid in H. inv H. left. eapply Hfin; reflexivity.
  - right. rewrite (step_end _ _ _ i s) in H by auto. inv H. split; [reflexivity|].
    unfold not_served. rewrite end_conns. apply aget_del_same, nateqb_spec.
  - left. exists s, st. rewrite (step_other_session cfg w e w' o i Hwf He H Hlt).
    + split; [apply Hs|]. split; auto. left. split; auto. apply deliveries_none. intros q Hq.
      destruct (step_sent_publish _ _ _ _ _ _ _ H Hq) as [(k0 & u & a & E)|(? & ? & ? & E & _)].
      * exfalso. apply Hf. exists (Some (Connect k0)), u, a. exact E.
      * exfalso. eapply N2. exact E.
    + intros d k -> Hd. apply (us_only _ _ _ _ U) in Hd. subst. eapply N1. reflexivity.
    + intros d k -> Hd. apply (us_only _ _ _ _ U) in Hd. subst. eapply N2. reflexivity.
    + intros d -> Hd. apply (us_only _ _ _ _ U) in Hd. subst. apply N3. reflexivity.
    + intros x Hx Hd. apply (us_id _ _ _ _ U) in Hd. subst. auto.
Qed.

(** Once [c] is closed nothing is sent to it. *)
Lemma closed_no_delivery cfg es : forall w c, wf w -> not_served w c -> (forall e, In e es -> ~ first_on c e) ->
  forall f, deliveries c f (snd (run cfg es w)) = [].
Proof.
  induction es as [|e es IH]; intros w c Hwf Hn He f; [reflexivity|].
  rewrite run_cons. cbn [snd]. destruct (step cfg w e) as [w1 o1] eqn:E. cbn [fst snd]. rewrite deliveries_app.
  rewrite (IH w1 c); [rewrite app_nil_r| | |].
  - apply deliveries_none. intros q Hq. destruct (step_sent_publish _ _ _ _ _ _ _ E Hq) as [(k & u & a & ->)|(i & s & g & -> & [Hc _] & _)].
    + exfalso. apply (He (EFirst c (Some (Connect k)) u a)); [left; auto|]. exists (Some (Connect k)), u, a. reflexivity.
    + red in Hn. congruence.
  - eapply step_wf; eauto.
  - assert (Hc : forall k u a, e <> EFirst c k u a).
    { intros k u a ->. apply (He (EFirst c k u a)); [left; auto|]. exists k, u, a. reflexivity. }
    destruct (step_conns _ _ _ _ _ _ E Hc) as [Hx|Hx]; auto. red. rewrite Hx. exact Hn.
  - intros e0 H0. apply He. right. exact H0.
Qed.

Definition quiet (c : nat) (id f : bytes) (e : event) : Prop :=
  e <> ERestart /\ ~ presents e id /\ ~ resubscribes c f e /\ ~ first_on c e.
Lemma delivery_inv cfg es : forall w c i id s f st n0 live, wf w -> (forall e, In e es -> quiet c id f e) ->
  unshared w c i id -> serves w c i s -> subscription s f st ->
  (st_retained st <> [] -> live = []) -> (n0 <= st_next st)%nat ->
  (live = [] \/ (st_next st <= length (sent_to w f))%nat /\ subseq live (skipn n0 (firstn (st_next st) (sent_to w f)))) ->
  exists dn rest more, st_retained st = dn ++ rest /\ Forall2 (sent_as f) (deliveries c f (snd (run cfg es w))) (dn ++ more)
    /\ (rest <> [] -> more = [] /\ live = []) /\ subseq (live ++ more) (skipn n0 (sent_to (fst (run cfg es w)) f)).
Proof.
  induction es as [|e es IH]; intros w c i id s f st n0 live Hwf Hq U Hs Hsub Hret Hn0 Hlive.
  - exists [], (st_retained st), []. simpl. repeat split; try (apply Forall2_nil); auto. rewrite app_nil_r.
    destruct Hlive as [->|[H1 H2]]; [apply subseq_nil|].
    rewrite <- (firstn_skipn (st_next st) (sent_to w f)). rewrite skipn_app.
    apply subseq_app_r. exact H2.
  - destruct (Hq e (or_introl eq_refl)) as (Q1 & Q2 & Q3 & Q4).
    destruct (step cfg w e) as [w1 o1] eqn:E.
    assert (Hwf1 : wf w1) by (eapply step_wf; eauto).
    destruct (step_log_grows cfg w e w1 o1 (levels f) Hwf Q1 E) as [gr Hgr].
    change (sent_to w1 f = sent_to w f ++ gr) in Hgr.
    assert (Hgrow : live = [] \/ (st_next st <= length (sent_to w1 f))%nat /\ subseq live (skipn n0 (firstn (st_next st) (sent_to w1 f)))).
    { destruct Hlive as [->|[H1 H2]]; auto. right. rewrite Hgr, app_length. split; [lia|].
      rewrite firstn_app. replace (st_next st - length (sent_to w f))%nat with O by lia. simpl. rewrite app_nil_r. exact H2. }
    rewrite run_cons, E. cbn [fst snd]. rewrite deliveries_app.
    assert (Hdead : deliveries c f o1 = [] -> not_served w1 c ->
       exists dn rest more, st_retained st = dn ++ rest /\ Forall2 (sent_as f) (deliveries c f o1 ++ deliveries c f (snd (run cfg es w1))) (dn ++ more)
         /\ (rest <> [] -> more = [] /\ live = []) /\ subseq (live ++ more) (skipn n0 (sent_to (fst (run cfg es w1)) f))).
    { intros Hd Hn. rewrite Hd, (closed_no_delivery cfg es w1 c Hwf1 Hn).
      2:{ intros e0 H0. apply Hq. right. exact H0. }
      exists [], (st_retained st), []. simpl. split; [reflexivity|]. split; [constructor|]. split; [auto|]. rewrite app_nil_r.
      destruct Hgrow as [->|[H1 H2]]; [apply subseq_nil|].
      assert (Hg2 : exists gr2, sent_to (fst (run cfg es w1)) f = sent_to w1 f ++ gr2).
      { clear -Hwf1 Hq. assert (Hq' : forall e0, In e0 es -> e0 <> ERestart) by (intros e0 H0; apply Hq; right; exact H0). clear Hq.
        revert w1 Hwf1. induction es as [|e0 es IH]; intros w1 Hwf1; [exists []; rewrite app_nil_r; reflexivity|].
        rewrite run_cons. cbn [fst]. destruct (step cfg w1 e0) as [w2 o2] eqn:E2. cbn [fst].
        destruct (step_log_grows cfg w1 e0 w2 o2 (levels f) Hwf1 (Hq' _ (or_introl eq_refl)) E2) as [g1 Hg1].
        destruct (IH (fun e1 H1 => Hq' e1 (or_intror H1)) w2 (step_wf _ _ _ _ _ Hwf1 E2)) as [g2 Hg2]. unfold sent_to in *.
        rewrite Hg2, Hg1, <- app_assoc. eauto. }
      destruct Hg2 as [gr2 ->]. rewrite <- (firstn_skipn (st_next st) (sent_to w1 f)), <- app_assoc, skipn_app. apply subseq_app_r. exact H2. }
    destruct (step_stream cfg w e w1 o1 c i id s f st Hwf Q1 Q2 Q3 Q4 E U Hs Hsub) as [(s' & st' & Hi & Hsub' & Hcase)|[Hd Hn]]; [|auto].
    destruct (unshared_step cfg w e w1 o1 c i id Hwf Q1 Q2 E U) as [U'|Hn].
    2:{ destruct Hcase as [[-> Hd]|(m & q & Hnx & Hd & Hsa & Hst)]; [auto|].
        (* a delivery never closes the connection *)
        exfalso. assert (Hin : exists q0, In (Sent c (Publish q0)) o1).
        { assert (Hne : deliveries c f o1 <> []) by (rewrite Hd; discriminate). clear -Hne.
          induction o1 as [|x o1 IH]; [contradiction|]. simpl in Hne. destruct x as [d [] |d|d];
            try (destruct (IH Hne) as [q0 H0]; exists q0; right; exact H0).
          destruct (Nat.eqb d c) eqn:Ed; [apply Nat.eqb_eq in Ed; subst; eexists; left; reflexivity|].
          destruct (IH Hne) as [q0 H0]; exists q0; right; exact H0. }
        destruct Hin as [q0 Hin]. destruct (step_sent_publish _ _ _ _ _ _ _ E Hin) as [(k & u & a & ->)|(j & x & g & -> & Hsv & _)].
        - apply Q4. exists (Some (Connect k)), u, a. reflexivity.
        - rewrite (step_out _ _ _ j x) in E by auto. unfold out_step in E. 
          assert (Hcc : w_conns w1 = w_conns w).
          { destruct (process_outgoing _ _ _) as [[[p|er|] s2]|]; injection E as <- <-; simpl in Hin; try (intuition discriminate).
            destruct (pb_packet_id p); [destruct (pb_qos p)|]; reflexivity. }
          red in Hn. rewrite Hcc in Hn. destruct Hsv. congruence. }
    assert (Hs' : serves w1 c i s') by (split; [apply (us_conn _ _ _ _ U')|exact Hi]).
    assert (Hq' : forall e0, In e0 es -> quiet c id f e0) by (intros e0 H0; apply Hq; right; exact H0).
    destruct Hcase as [[-> Hd]|(m & q & Hnx & Hd & Hsa & Hst)].
    + rewrite Hd. simpl. eapply IH; eauto.
    + rewrite Hd. rewrite stream_next_eq in Hnx. destruct (st_retained st) as [|r0 rs] eqn:Er.
      * set (pos := Nat.max (st_next st) (length (sent_to w f) - capacity)) in *.
        destruct (nth_error (sent_to w f) pos) as [m0|] eqn:Enth; [|discriminate]. injection Hnx as <- <-.
        assert (Hpos : (pos < length (sent_to w f))%nat) by (eapply nth_error_lt; eauto).
        destruct (IH w1 c i id s' f (Mk_stream [] (S pos)) n0 (live ++ [m0])) as (dn & rest & more & H1 & H2 & H3 & H4); auto.
        { simpl. congruence. }
        { simpl. lia. }
        { right. cbn [st_next]. rewrite Hst. split; [lia|]. rewrite (firstn_S_nth _ _ _ Enth), skipn_app.
          replace (n0 - length (firstn pos (sent_to w f)))%nat with O by (rewrite firstn_length; lia).
          apply subseq_app; [|apply subseq_refl].
          destruct Hlive as [->|[_ H2]]; [apply subseq_nil|].
          assert (Hff : firstn pos (sent_to w f) = firstn (st_next st) (sent_to w f) ++ skipn (st_next st) (firstn pos (sent_to w f))).
          { rewrite <- (firstn_skipn (st_next st) (firstn pos (sent_to w f))) at 1. f_equal. rewrite firstn_firstn. f_equal. lia. }
          rewrite Hff, skipn_app. apply subseq_app_r. exact H2. }
        simpl in H1. symmetry in H1. apply app_eq_nil in H1. destruct H1 as [-> ->].
        exists [], [], (m0 :: more). simpl in *. split; [reflexivity|]. split; [constructor; auto|]. split; [congruence|].
        rewrite <- app_assoc in H4. exact H4.
      * injection Hnx as <- <-.
        destruct (IH w1 c i id s' f (Mk_stream rs (st_next st)) n0 live) as (dn & rest & more & H1 & H2 & H3 & H4); auto.
        { intros _. apply Hret. discriminate. }
        simpl in H1. exists (r0 :: dn), rest, more. split; [simpl; congruence|]. split; [simpl; constructor; auto|]. auto.
Qed.

(** ** Delivery without loss *)
Lemma delivered_served cfg w e w1 o1 c f : ~ first_on c e -> step cfg w e = (w1, o1) -> deliveries c f o1 <> [] ->
  exists i s, serves w c i s /\ w_conns w1 = w_conns w.
Proof.
  intros Q4 E Hne. assert (Hin : exists q0, In (Sent c (Publish q0)) o1).
  { clear -Hne. induction o1 as [|x o1 IH]; [contradiction|]. simpl in Hne. destruct x as [d [] |d|d];
      try (destruct (IH Hne) as [q0 H0]; exists q0; right; exact H0).
    destruct (Nat.eqb d c) eqn:Ed; [apply Nat.eqb_eq in Ed; subst; eexists; left; reflexivity|].
    destruct (IH Hne) as [q0 H0]; exists q0; right; exact H0. }
  destruct Hin as [q0 Hin]. destruct (step_sent_publish _ _ _ _ _ _ _ E Hin) as [(k & u & a & ->)|(j & x & g & -> & Hsv & _)].
  - exfalso. apply Q4. exists (Some (Connect k)), u, a. reflexivity.
  - exists j, x. split; auto. rewrite (step_out _ _ _ j x) in E by auto. unfold out_step in E.
    destruct (process_outgoing _ _ _) as [[[p|er|] s2]|]; injection E as <- <-; simpl in Hin; try (intuition discriminate).
    destruct (pb_packet_id p); [destruct (pb_qos p)|]; reflexivity.
Qed.

(** Never more than 16 messages wait for the subscription during [es]. *)
Definition keeps_up (cfg : config) (w : world) (c : nat) (f : bytes) (st : stream) (es : list event) : Prop :=
  forall es1 es2, es = es1 ++ es2 ->
    (length (sent_to (fst (run cfg es1 w)) f) - st_next st
     - (length (deliveries c f (snd (run cfg es1 w))) - length (st_retained st)) <= 16)%nat.

Lemma run_log_grows cfg es f : forall w, wf w -> (forall e, In e es -> e <> ERestart) ->
  exists more, sent_to (fst (run cfg es w)) f = sent_to w f ++ more.
Proof.
  induction es as [|e0 es IH]; intros w1 Hwf1 Hq'; [exists []; rewrite app_nil_r; reflexivity|].
  rewrite run_cons. cbn [fst]. destruct (step cfg w1 e0) as [w2 o2] eqn:E2. cbn [fst].
  destruct (step_log_grows cfg w1 e0 w2 o2 (levels f) Hwf1 (Hq' _ (or_introl eq_refl)) E2) as [g1 Hg1].
  destruct (IH w2 (step_wf _ _ _ _ _ Hwf1 E2) (fun e1 H1 => Hq' e1 (or_intror H1))) as [g2 Hg2]. unfold sent_to in *.
  rewrite Hg2, Hg1, <- app_assoc. eauto.
Qed.

Lemma delivery_exact cfg es : forall w c i id s f st, wf w -> (forall e, In e es -> quiet c id f e) ->
  unshared w c i id -> serves w c i s -> subscription s f st -> keeps_up cfg w c f st es ->
  Forall2 (sent_as f) (deliveries c f (snd (run cfg es w)))
    (firstn (length (deliveries c f (snd (run cfg es w)))) (st_retained st ++ skipn (st_next st) (sent_to (fst (run cfg es w)) f))).
Proof.
  induction es as [|e es IH]; intros w c i id s f st Hwf Hq U Hs Hsub Hk; [constructor|].
  destruct (Hq e (or_introl eq_refl)) as (Q1 & Q2 & Q3 & Q4).
  destruct (step cfg w e) as [w1 o1] eqn:E.
  assert (Hwf1 : wf w1) by (eapply step_wf; eauto).
  assert (Hq' : forall e0, In e0 es -> quiet c id f e0) by (intros e0 H0; apply Hq; right; exact H0).
  assert (Hk1 : forall es1 es2, es = es1 ++ es2 ->
    (length (sent_to (fst (run cfg es1 w1)) f) - st_next st
     - (length (deliveries c f o1) + length (deliveries c f (snd (run cfg es1 w1))) - length (st_retained st)) <= 16)%nat).
  { intros es1 es2 ->. specialize (Hk (e :: es1) es2 eq_refl). rewrite run_cons, E in Hk. cbn [fst snd] in Hk.
    rewrite deliveries_app, app_length in Hk. exact Hk. }
  specialize (Hk [] (e :: es) eq_refl). simpl in Hk.
  rewrite run_cons, E. cbn [fst snd]. rewrite deliveries_app.
  destruct (step_stream cfg w e w1 o1 c i id s f st Hwf Q1 Q2 Q3 Q4 E U Hs Hsub) as [(s' & st' & Hi & Hsub' & Hcase)|[Hd Hn]].
  2:{ rewrite Hd, (closed_no_delivery cfg es w1 c Hwf1 Hn); [constructor|]. intros e0 H0. apply Hq'. exact H0. }
  destruct (unshared_step cfg w e w1 o1 c i id Hwf Q1 Q2 E U) as [U'|Hn].
  2:{ destruct Hcase as [[-> Hd]|(m & q & Hnx & Hd & Hsa & Hst)].
      - rewrite Hd, (closed_no_delivery cfg es w1 c Hwf1 Hn); [constructor|]. intros e0 H0. apply Hq'. exact H0.
      - exfalso. destruct (delivered_served cfg w e w1 o1 c f Q4 E) as (j & x & [Hj _] & Hc); [rewrite Hd; discriminate|].
        red in Hn. rewrite Hc in Hn. congruence. }
  assert (Hs' : serves w1 c i s') by (split; [apply (us_conn _ _ _ _ U')|exact Hi]).
  destruct Hcase as [[-> Hd]|(m & q & Hnx & Hd & Hsa & Hst)]; rewrite Hd in *; simpl in Hk1 |- *.
  - eapply IH; eauto.
  - rewrite stream_next_eq in Hnx. destruct (st_retained st) as [|r0 rs] eqn:Er.
    + simpl in Hk. replace (Nat.max (st_next st) (length (sent_to w f) - capacity)) with (st_next st) in Hnx by (unfold capacity; lia).
      destruct (nth_error (sent_to w f) (st_next st)) as [m0|] eqn:Enth; [|discriminate]. injection Hnx as <- <-.
      destruct (run_log_grows cfg es f w1 Hwf1) as [more Hm]; [intros e0 H0; apply Hq'; exact H0|].
      assert (Hsk : skipn (st_next st) (sent_to (fst (run cfg es w1)) f) = m0 :: skipn (S (st_next st)) (sent_to (fst (run cfg es w1)) f)).
      { rewrite Hm, Hst. assert (Hn : nth_error (sent_to w f ++ more) (st_next st) = Some m0).
        { rewrite nth_error_app1; auto. eapply nth_error_lt; eauto. }
        clear -Hn. revert Hn. generalize (sent_to w f ++ more) as l. generalize (st_next st) as n.
        induction n as [|n IH]; intros [|x l] Hn; try discriminate; [inv Hn; reflexivity|]. apply (IH l Hn). }
      rewrite Hsk. simpl. constructor; auto.
      apply (IH w1 c i id s' f (Mk_stream [] (S (st_next st)))); auto.
      intros es1 es2 Hes. cbn [st_next st_retained length]. specialize (Hk1 es1 es2 Hes). simpl in Hk1. lia.
    + injection Hnx as <- <-. simpl. constructor; auto.
      apply (IH w1 c i id s' f (Mk_stream rs (st_next st))); auto.
Qed.
