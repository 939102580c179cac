(** Bounds on what sessions remember: proofs. *)
From Verif Require Import Base Codec SpecCodec CodecFacts Tac Property PacketProps Packets SpecPackets Frame FrameFacts Maps TreeFacts
  Topic SpecTopic Storage Broker SpecBroker Session SessionFacts Server SpecServer ServerFacts HandlerFacts HistoryFacts WorldFacts
  ConnectFacts StoreFacts BrokerFacts DeliveryFacts ProvenanceFacts SpecOutput OutputFacts.
Local Open Scope list_scope.

(** ** The stored messages in flight *)
Lemma step_inflight cfg w e w' o : wf w -> e <> ERestart -> step cfg w e = (w', o) ->
  ms_inflight (w_store w') = ms_inflight (w_store w)
  \/ (exists cid pid i, ms_inflight (w_store w') = ms_inflight (mem_store_inflight cid pid i (w_store w)))
  \/ (exists cid pid, ms_inflight (w_store w') = ms_inflight (mem_remove_inflight cid pid (w_store w))).
Proof.
  intros Hwf He H. apply step_inv in H.
  destruct H as [(-> & -> & Hid)|[(c&k&Ee&Hn&Hk&->&_)|[(c&k&u&a&->&Hn&H)|[(c&i&s&d&->&[Hc Hi]&->&_)|[(c&i&s&k&->&[Hc Hi]&Hk&H)|[(c&i&s&f&->&[Hc Hi]&H)|[(c&i&s&->&[Hc Hi]&->&_)|[(c&i&s&->&[Hc Hi]&->&_)|(->&_)]]]]]]]];
    [..|congruence]; auto.
  - left. unfold connect_step in H. destruct (authenticated cfg k); simpl in H; [|inv H; auto].
    destruct (start_session u a k w) as [[ack r] w1] eqn:E.
    destruct (start_session_spec _ _ _ _ _ _ _ Hwf E) as (i & subs & wl & infl & s & He' & Hack & Hr & Hnn & _ & _ & _ & _ & Ht & Hst).
    destruct a; subst r; simpl in H.
    + rewrite Hnn in H. destruct (restore_subscriptions subs (snd (begin u (resumes k w) s)) (w_broker w1)) as [s2 b2] eqn:Er.
      assert (Hs : w_store w' = w_store w1).
      { inv H. unfold w_store. simpl. apply restore_spec in Er. destruct Er as (_ & _ & -> & _). reflexivity. }
      rewrite Hs, Hst. unfold connect_store. destruct (cf_clean_start (c_flags k)), (se_will _); reflexivity.
    + inv H. rewrite Hst. destruct (cf_clean_start (c_flags k)); reflexivity.
  - left. assert (Hx : nth_error (w_heap (put_session i (set_will None s) w)) i = Some (set_will None s)) by (eapply put_same; eauto).
    unfold disconnect_step.
    destruct (end_store c i (set_store (mem_delete_will (se_client_id s) (w_store (put_session i (set_will None s) w)))
       (put_session i (set_will None s) w)) _ Hx) as (H1 & H2 & H3). rewrite H2. reflexivity.
  - unfold packet_step in H.
    destruct (process_incoming (sv_manager cfg) k s (w_broker w)) as [[r s1] b1] eqn:Ep.
    destruct (process_store _ _ _ _ _ _ _ Ep) as (P1 & P2 & P3 & P4). fold (w_store w) in P1, P2, P3.
    destruct r as [x|er|]; inv H.
    + set (w1 := put_session i s1 (set_broker b1 w)).
      set (w2 := if is_subscription_change k then _ else w1).
      assert (W3 : ms_inflight (w_store w2) = ms_inflight (w_store w)).
      { unfold w2. destruct (is_subscription_change k); unfold w_store; simpl; exact P3. }
      destruct (inflight_completed k) as [p|]; [|left; exact W3].
      right. right. exists (se_client_id s1), p. unfold w_store at 1. simpl. unfold mem_remove_inflight. rewrite W3.
      destruct (aget bytes_eqb (se_client_id s1) (ms_inflight (w_store w))); [reflexivity|exact W3].
    + left. assert (Hi1 : nth_error (w_heap (put_session i s1 (set_broker b1 w))) i = Some s1) by (eapply put_same; simpl; eauto).
      destruct (end_store c i _ _ Hi1) as (H1 & H2 & H3). rewrite H2. exact P3.
    + left. exact P3.
  - unfold out_step in H. destruct (process_outgoing f s (w_broker w)) as [[r s1]|] eqn:Ep; [|inv H; auto].
    destruct r as [p|er|]; inv H; auto. destruct (pb_packet_id p) as [pid|] eqn:Epid; [|auto].
    destruct (pb_qos p); auto; right; left; eexists _, _, _; reflexivity.
  - left. destruct (end_store c i w s Hi) as (H1 & H2 & H3). exact H2.
Qed.

(** ** Maps from packet identifiers *)
Definition idmap {V} (l : list (N * V)) : Prop := NoDup (akeys l) /\ forall i, In i (akeys l) -> wf_id i.
Lemma idmap_nil {V} : @idmap V [].
Proof. split; [constructor|intros i []]. Qed.
Lemma idmap_aput {V} i (v : V) l : wf_id i -> idmap l -> idmap (aput N.eqb i v l).
Proof.
  intros Hi [H1 H2]. split; [apply nodup_aput; [apply N.eqb_eq|exact H1]|].
  intros j Hj. apply akeys_aput in Hj; [|apply N.eqb_eq]. destruct Hj as [->|Hj]; auto.
Qed.
Lemma idmap_adel {V} i (l : list (N * V)) : idmap l -> idmap (adel N.eqb i l).
Proof.
  intros [H1 H2]. split; [apply nodup_adel; [apply N.eqb_eq|exact H1]|].
  intros j Hj. apply akeys_adel in Hj; [|apply N.eqb_eq]. apply H2, Hj.
Qed.
Lemma ids_below b (l : list N) : NoDup l -> (forall i, In i l -> i < b) -> N.of_nat (length l) <= b.
Proof.
  intros Hn Hl. set (all := map N.of_nat (seq 0 (N.to_nat b))).
  assert (Ha : length all = N.to_nat b) by (unfold all; rewrite map_length, seq_length; reflexivity).
  assert (H : (length l <= length all)%nat); [|lia]. apply NoDup_incl_length; [exact Hn|]. intros i Hi. apply Hl in Hi.
  unfold all. apply in_map_iff. exists (N.to_nat i). split; [apply N2Nat.id|]. apply in_seq. lia.
Qed.
Lemma idmap_length {V} (l : list (N * V)) : idmap l -> N.of_nat (length l) <= 65536.
Proof.
  intros [H1 H2]. replace (length l) with (length (akeys l)) by (unfold akeys; apply map_length). apply ids_below; assumption.
Qed.

(** ** What sessions remember *)
Definition small (s : session) : Prop := idmap (se_unacked s) /\ idmap (se_pubrecs s).
Lemma incoming_small am k s b r s' b' : process_incoming am k s b = (r, s', b') -> received k -> small s -> small s'.
Proof.
  intros H Hr [H1 H2]. destruct k; simpl in H; try (inv H; split; assumption).
  - unfold handle_publish in H. destruct (validate_publish_topic _); [inv H; split; assumption|].
    match type of Hr with received (Publish ?q) => pose proof (received_publish q Hr) as (Hp & _);
      destruct (pb_qos q), (pb_packet_id q) as [i|] end; try contradiction; inv H; split; simpl; auto using idmap_aput.
  - inv H. split; simpl; auto using idmap_adel.
  - pose proof (received_ack _ a (or_intror (or_introl eq_refl)) Hr) as Hi. inv H. split; simpl; auto using idmap_adel, idmap_aput.
  - inv H. split; simpl; auto using idmap_adel.
  - inv H. split; simpl; auto using idmap_adel.
  - unfold handle_subscribe in H. destruct (subscribe_loop (sb_payload s0) (se_subs s) b) as [[rs subs] b1]. inv H. split; assumption.
  - unfold handle_unsubscribe in H. destruct (unsubscribe_loop (us_payload s0) (se_subs s)) as [rs subs]. inv H. split; assumption.
  - destruct (handle_auth am a s) as [r1 s1] eqn:E. inv H. unfold handle_auth in E. destruct am; [|inv E; split; assumption].
    repeat case_match; inv E; split; assumption.
Qed.
Lemma outgoing_small h w j s f r s' : prov h w -> Forall from_network h -> nth_error (w_heap w) j = Some s ->
  process_outgoing f s (w_broker w) = Some (r, s') -> small s -> small s'.
Proof.
  intros Hp HF Hj H [H1 H2].
  assert (Hok : forall p, r = Ok p -> match pb_packet_id p with Some i => wf_id i | None => True end).
  { intros p ->. destruct (outgoing_prov h w j s f (Ok p) s' Hp Hj H) as (Ho & _). destruct (Ho p eq_refl) as (_ & m & Hm & -> & _).
    destruct (origin_fields h m HF Hm) as (_ & _ & Hi). cbn. destruct (mg_packet_id m); [apply Hi|exact I]. }
  unfold process_outgoing in H. destruct (aget bytes_eqb f (se_subs s)) as [st|]; [|discriminate].
  destruct (stream_next _ st) as [[m st']|]; [|discriminate].
  destruct (mg_packet_id m) as [i|] eqn:Ei; [destruct (mg_qos m) eqn:Eq|]; inversion H; subst r s'; try (split; assumption).
  - split; [|assumption]. simpl. apply idmap_aput; [|assumption]. specialize (Hok _ eq_refl). cbn in Hok. rewrite Ei in Hok. exact Hok.
  - split; [|assumption]. simpl. apply idmap_aput; [|assumption]. specialize (Hok _ eq_refl). cbn in Hok. rewrite Ei in Hok. exact Hok.
Qed.
Record small_world (w : world) : Prop := {
  sw_heap : forall j s, nth_error (w_heap w) j = Some s -> small s;
  sw_store : forall cid l, aget bytes_eqb cid (ms_inflight (w_store w)) = Some l -> NoDup (akeys l)
}.
Lemma begin_small u r s : small s -> small (snd (begin u r s)).
Proof. unfold begin. repeat case_match; intros H; exact H. Qed.
Lemma step_small cfg h w e w' o : prov h w -> Forall from_network h -> from_network e -> small_world w ->
  step cfg w e = (w', o) -> small_world w'.
Proof.
  intros Hp HF Hn Hs H. assert (Hev : e = ERestart \/ e <> ERestart) by (destruct e; auto; right; discriminate).
  destruct Hev as [->|Hev].
  { simpl in H. inv H. constructor; [intros j s Hj; destruct j; discriminate|exact (sw_store w Hs)]. }
  pose proof (pv_wf h w Hp) as Hwf. destruct (step_heap cfg w e w' o Hwf Hev H) as (Hh & Hnew & _ & _). constructor.
  - intros j s' Hj. destruct (nth_error (w_heap w) j) as [s|] eqn:Ej.
    + destruct (Hh j s Ej) as (s1 & Hj1 & Hch). rewrite Hj in Hj1. injection Hj1 as <-. pose proof (sw_heap w Hs j s Ej) as H1.
      inversion Hch as [e0 s0|c k u a resume s0|c k s0 s1 b1 r Hd Hss Hpi|c k s0 s1 b1 er Hd Hss Hpi|c d s0|c g s0 s1 r Hss Hpo|c s0]; subst; auto.
      * apply begin_small. exact H1.
      * eapply incoming_small; eauto.
      * apply (incoming_small _ _ _ _ _ _ _ Hpi Hn) in H1. exact H1.
      * eapply outgoing_small; eauto.
    + apply nth_error_None in Ej. pose proof (Hnew j s' Hj Ej) as Hcr.
      inversion Hcr as [c k u subs wl infl s b b' _ Hns Ha He Hb1 Hb2 Hrs|c k u subs wl infl _ Hns Ha He]; subst.
      * destruct (restore_spec _ _ _ _ _ Hrs) as (_ & _ & _ & _ & _ & _ & _ & (_ & _ & Hu & Hr & _)).
        assert (Hsm : small s) by (split; [rewrite Hu|rewrite Hr]; apply begin_small; split; apply idmap_nil).
        destruct wl; exact Hsm.
      * apply begin_small. split; apply idmap_nil.
  - intros cid l Hl. destruct (step_inflight cfg w e w' o Hwf Hev H) as [E|[(c1 & pid & i & E)|(c1 & pid & E)]]; rewrite E in Hl.
    + exact (sw_store w Hs cid l Hl).
    + cbn in Hl. rewrite aget_aput in Hl by apply beqb_spec. destruct (bytes_eqb cid c1) eqn:Ec; [|exact (sw_store w Hs cid l Hl)].
      injection Hl as <-. apply nodup_aput; [apply N.eqb_eq|]. unfold inflight_of.
      destruct (aget bytes_eqb c1 (ms_inflight (w_store w))) as [l1|] eqn:E1; [exact (sw_store w Hs c1 l1 E1)|constructor].
    + unfold mem_remove_inflight in Hl. destruct (aget bytes_eqb c1 (ms_inflight (w_store w))) as [l1|] eqn:E1; [|exact (sw_store w Hs cid l Hl)].
      cbn in Hl. rewrite aget_aput in Hl by apply beqb_spec. destruct (bytes_eqb cid c1) eqn:Ec; [|exact (sw_store w Hs cid l Hl)].
      injection Hl as <-. apply nodup_adel; [apply N.eqb_eq|]. exact (sw_store w Hs c1 l1 E1).
Qed.
Lemma run_small cfg es : forall h w, prov h w -> Forall from_network h -> Forall from_network es -> small_world w ->
  small_world (fst (run cfg es w)) /\ prov (h ++ es) (fst (run cfg es w)).
Proof.
  induction es as [|e es IH]; intros h w Hp HF Hn Hs; [rewrite app_nil_r; auto|].
  inversion Hn as [|? ? Hn1 Hn2]; subst. rewrite run_cons. cbn [fst]. destruct (step cfg w e) as [w1 o1] eqn:E. cbn [fst].
  replace (h ++ e :: es) with ((h ++ [e]) ++ es) by (rewrite <- app_assoc; reflexivity).
  apply IH; [eapply step_prov; eauto|apply Forall_app; auto|exact Hn2|eapply step_small; eauto].
Qed.
(** A stored identifier is one of a packet. *)
Lemma stored_id h w cid pid i : prov h w -> Forall from_network h -> stored_inflight (w_store w) cid pid i -> wf_id pid.
Proof.
  intros Hp HF Hs. destruct (pv_infl h w Hp cid pid i Hs) as (_ & m & Hm & _ & _ & _ & Hd). cbn in Hd.
  destruct (origin_fields h m HF Hm) as (_ & _ & Hi). rewrite <- Hd in Hi. apply Hi.
Qed.
Lemma small_new : small_world world_new.
Proof. constructor; [intros j s Hj; destruct j; discriminate|discriminate]. Qed.
Lemma inflight_length h w cid : prov h w -> Forall from_network h -> small_world w ->
  N.of_nat (length (mem_get_all_inflight cid (w_store w))) <= 65536.
Proof.
  intros Hp HF Hs. unfold mem_get_all_inflight. destruct (aget bytes_eqb cid (ms_inflight (w_store w))) as [l|] eqn:E; [|cbn; lia].
  unfold avals. rewrite map_length. apply idmap_length. split; [exact (sw_store w Hs cid l E)|].
  intros i Hi. unfold akeys in Hi. apply in_map_iff in Hi. destruct Hi as ((j & x) & <- & Hj).
  apply (stored_id h w cid j x Hp HF). exists l. split; [exact E|exact Hj].
Qed.
