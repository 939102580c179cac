(** What the broker writes. *)
From Verif Require Import Base Utf8 Codec SpecCodec Property SpecProperty PacketProps Packets SpecPackets Tac Maps CodecFacts
  PropertyFacts PacketPropsFacts PacketsFacts PacketsRoundtrip PacketsDefects SpecWire WireConform WireAccept WireDefects
  Topic SpecTopic TopicFacts TopicTree TreeFacts Storage SpecStorage StorageFacts Broker SpecBroker BrokerFacts Auth Session Server
  SpecServer SessionFacts ServerFacts HandlerFacts HistoryFacts ProvenanceFacts SpecOutput.

(** ** Packets received *)
Lemma string_wf x s : string_field x s -> wf_str s.
Proof. intros (l & _ & H & U). apply int2_iff in H. split; [exact U|lia]. Qed.
Lemma received_lenient k : received k -> exists v x, lenient v k x.
Proof. intros (p & v & bs & r & Hb & Hl & H). destruct (packet_accept p v bs k r Hb Hl H) as (x & _ & L). eauto. Qed.

Lemma received_publish b : received (Publish b) ->
  match pb_qos b, pb_packet_id b with
  | AtMostOnce, None => True
  | AtLeastOnce, Some i | ExactlyOnce, Some i => wf_id i
  | _, _ => False
  end /\ owf is_bytes (pb_payload b) /\ pb_payload b <> None.
Proof.
  intros H. apply received_lenient in H. destruct H as (v & x & m & q & t & id & ps & ps' & d & _ & Hq & _ & Hi & _ & Hp & Hd & _).
  rewrite Hp. split; [|split; [exact Hd|discriminate]].
  destruct (pb_qos b).
  - destruct Hi as [_ ->]. exact I.
  - destruct Hi as (i & Hi & ->). apply int2_iff in Hi. apply Hi.
  - destruct Hi as (i & Hi & ->). apply int2_iff in Hi. apply Hi.
  - exfalso. cbn in Hq. intuition discriminate.
Qed.
Lemma received_ack k a : (k = PubAck a \/ k = PubRec a \/ k = PubRel a \/ k = PubComp a) -> received k -> wf_id (ak_packet_id a).
Proof.
  intros Hk H. apply received_lenient in H. destruct H as (v & x & H).
  destruct Hk as [->|[->|[->| ->]]]; destruct H as (h & m & body & _ & _ & id & rest & _ & Hi & _); apply int2_iff in Hi; apply Hi.
Qed.
Lemma until_Forall {A} (field : bytes -> A -> Prop) (Q : A -> Prop) n bs l :
  (forall x a, field x a -> Q a) -> until field n bs l -> Forall Q l.
Proof. intros HQ. induction 1; constructor; eauto. Qed.
Lemma lax_list_Forall {A} (field : bytes -> A -> Prop) (Q : A -> Prop) n bs l :
  (forall x a, field x a -> Q a) -> lax_list field n bs l -> Forall Q l.
Proof. intros HQ [H|[_ ->]]; [eapply until_Forall; eauto|constructor]. Qed.
Lemma received_subscribe s : received (Subscribe s) -> wf_id (sb_packet_id s) /\ Forall (fun fo => wf_str (fst fo)) (sb_payload s).
Proof.
  intros H. apply received_lenient in H. destruct H as (v & x & h & m & id & ps & fs & _ & _ & Hi & _ & Hl).
  apply int2_iff in Hi. split; [apply Hi|]. eapply lax_list_Forall; [|exact Hl].
  intros y fo (f & n & _ & Hf & _). eapply string_wf; eauto.
Qed.
Lemma received_unsubscribe s : received (Unsubscribe s) -> wf_id (us_packet_id s).
Proof.
  intros H. apply received_lenient in H. destruct H as (v & x & h & m & id & ps & fs & _ & _ & Hi & _). apply int2_iff in Hi. apply Hi.
Qed.
Lemma received_will k : received (Connect k) -> cf_will_flag (c_flags k) = true ->
  cf_will_qos (c_flags k) <> QInvalid /\ owf is_bytes (cl_will_payload (c_payload k)).
Proof.
  intros H Hf. apply received_lenient in H.
  destruct H as (v & x & h & m & name & fl & ka & ps & pl & _ & _ & _ & Hfl & _ & _ & Hpl).
  destruct Hfl as (q & _ & _ & Hq). rewrite Hf in Hq. split; [intros E; rewrite E in Hq; cbn in Hq; intuition discriminate|].
  destruct Hpl as (id & wp & wt & wd & u & pw & _ & _ & _ & _ & Hw & _). rewrite Hf in Hw. cbn in Hw.
  destruct Hw as (d & -> & l & _ & _ & Hd). exact Hd.
Qed.

(** ** What the messages look like *)
Lemma origin_fields h m : Forall from_network h -> origin h m ->
  mg_qos m <> QInvalid /\ owf is_bytes (mg_payload m) /\
  match mg_packet_id m with Some i => mg_qos m <> AtMostOnce /\ wf_id i | None => True end.
Proof.
  intros HF Ho. rewrite Forall_forall in HF. destruct Ho as [c p r Hin|c k u a t r Hin Hf Ht]; cbn.
  - pose proof (received_publish p (HF _ Hin)) as (H1 & H2 & _).
    destruct (pb_qos p), (pb_packet_id p); try contradiction; (split; [discriminate|]; split; [assumption|]); auto; split; auto; discriminate.
  - destruct (HF _ Hin) as [Hr _]. destruct (received_will k Hr Hf) as [H1 H2]. split; [exact H1|]. split; [|exact I].
    destruct (cl_will_payload (c_payload k)); [exact H2|constructor].
Qed.

(** ** Filters that are strings, sessions of one version *)
Record tidy (v : version) (w : world) : Prop := {
  td_wf : wf w;
  td_subs : forall j s f, nth_error (w_heap w) j = Some s -> aget bytes_eqb f (se_subs s) <> None -> wf_str f;
  td_ver : forall j s, nth_error (w_heap w) j = Some s -> c_protocol_version (se_connect s) = v;
  td_sess : forall cid st, aget bytes_eqb cid (ms_sessions (w_store w)) = Some st -> Forall wf_str (ss_subscriptions st);
  td_infl : forall cid pid i, stored_inflight (w_store w) cid pid i -> wf_str (if_topic i)
}.

Lemma tidy_new v : tidy v world_new.
Proof.
  constructor; try (simpl; intros; discriminate); try (intros cid pid i (l & Hl & _); discriminate).
  - apply wf_new.
  - intros j s f Hj. destruct j; discriminate.
  - intros j s Hj. destruct j; discriminate.
Qed.

Lemma begin_version u r s : c_protocol_version (se_connect (snd (begin u r s))) = c_protocol_version (se_connect s).
Proof. unfold begin. destruct (cl_client_id _); reflexivity. Qed.

Lemma process_connect am k s b r s' b' : process_incoming am k s b = (r, s', b') -> se_connect s' = se_connect s.
Proof.
  intros H. destruct k; simpl in H; try (inv H; reflexivity).
  - unfold handle_publish in H. destruct (validate_publish_topic _); [inv H; auto|].
    destruct (pb_qos _); [|destruct (pb_packet_id _)|destruct (pb_packet_id _)|]; inv H; auto.
  - unfold handle_subscribe in H. destruct (subscribe_loop _ _ _) as [[rs subs] b1]. inv H. reflexivity.
  - unfold handle_unsubscribe in H. destruct (unsubscribe_loop _ _). inv H. reflexivity.
  - destruct (handle_auth _ _ _) as [r1 s1] eqn:E. inv H. unfold handle_auth in E. destruct am; [|inv E; auto]. repeat case_match; inv E; auto.
Qed.

Lemma process_subs am k s b r s' b' f : process_incoming am k s b = (r, s', b') -> received k ->
  aget bytes_eqb f (se_subs s') <> None -> aget bytes_eqb f (se_subs s) <> None \/ wf_str f.
Proof.
  intros H Hr Hf. destruct k; simpl in H; try (inv H; auto; fail).
  - left. unfold handle_publish in H. destruct (validate_publish_topic _); [inv H; auto|].
    destruct (pb_qos _); [|destruct (pb_packet_id _)|destruct (pb_packet_id _)|]; inv H; auto.
  - unfold handle_subscribe in H. destruct (subscribe_loop (sb_payload s0) (se_subs s) b) as [[rs subs] b1] eqn:E. injection H as <- <- <-.
    destruct (subscribe_loop_spec _ _ _ _ _ _ E) as (_ & H2 & _). simpl in Hf. apply H2 in Hf.
    destruct Hf as [Hf|[Hin _]]; [auto|]. right. apply received_subscribe in Hr. destruct Hr as [_ HF].
    apply in_map_iff in Hin. destruct Hin as (fo & <- & Hin). rewrite Forall_forall in HF. auto.
  - left. unfold handle_unsubscribe in H. destruct (unsubscribe_loop (us_payload s0) (se_subs s)) as [rs subs] eqn:E.
    injection H as <- <- <-. destruct (unsubscribe_loop_spec _ _ _ _ E) as (_ & _ & H3 & H4 & _). simpl in Hf.
    destruct (in_dec bytes_dec f (us_payload s0)) as [Hin|Hin]; [rewrite H3 in Hf; congruence|rewrite H4 in Hf; auto].
  - left. destruct (handle_auth am a s) as [r1 s1] eqn:E. injection H as <- <- <-.
    assert (Hs : se_subs s1 = se_subs s); [|congruence].
    unfold handle_auth in E. destruct am; [|congruence]. repeat case_match; inv E; reflexivity.
Qed.

Lemma outgoing_parts f s b r s' : process_outgoing f s b = Some (r, s') ->
  aget bytes_eqb f (se_subs s) <> None /\ (forall g, aget bytes_eqb g (se_subs s') <> None -> aget bytes_eqb g (se_subs s) <> None)
  /\ se_connect s' = se_connect s /\ (forall p, r = Ok p -> exists m, p = outgoing_publish f m).
Proof.
  intros H. unfold process_outgoing in H. destruct (aget bytes_eqb f (se_subs s)) as [st|] eqn:Ef; [|discriminate].
  destruct (stream_next _ st) as [[m st']|]; [|discriminate].
  assert (Hg : forall g, aget bytes_eqb g (aput bytes_eqb f st' (se_subs s)) <> None -> aget bytes_eqb g (se_subs s) <> None).
  { intros g. rewrite aget_aput by apply beqb_spec. destruct (bytes_eqb g f) eqn:E; [apply beqb_spec in E; subst g; intros _; congruence|auto]. }
  split; [congruence|].
  destruct (mg_packet_id m) as [i|]; [destruct (mg_qos m)|]; inv H; (split; [exact Hg|]; split; [reflexivity|]; intros p E; inv E; eauto).
Qed.

Lemma step_tidy cfg v w e w' o : tidy v w -> from_network e -> speaks v e -> step cfg w e = (w', o) -> tidy v w'.
Proof.
  intros Ht Hn Hv H. assert (Hev : e = ERestart \/ e <> ERestart) by (destruct e; auto; right; discriminate).
  destruct Hev as [->|Hev].
  { simpl in H. inv H. constructor.
    - apply wf_restart.
    - simpl. intros j s f Hj. destruct j; discriminate.
    - simpl. intros j s Hj. destruct j; discriminate.
    - apply (td_sess v w Ht).
    - apply (td_infl v w Ht). }
  pose proof (td_wf v w Ht) as Hwf.
  destruct (step_heap cfg w e w' o Hwf Hev H) as (Hh & Hnew & Hwf' & Hlen).
  destruct (step_store cfg w e w' o Hwf Hev H) as (Hs1 & Hs2 & Hs3).
  assert (Hres : forall k, Forall wf_str (restored k w)).
  { intros k. unfold restored. destruct (cf_clean_start _); [constructor|]. destruct (is_some _); [constructor|].
    destruct (mem_load_session _ (w_store w)) as [st|] eqn:E; [|constructor]. eapply (td_sess v w Ht); eauto. }
  assert (Hsubs : forall j s f, nth_error (w_heap w') j = Some s -> aget bytes_eqb f (se_subs s) <> None -> wf_str f).
  { intros j s' f Hj Hf. destruct (nth_error (w_heap w) j) as [s|] eqn:Ej.
    - destruct (Hh j s Ej) as (s1 & Hj1 & Hch). rewrite Hj in Hj1. injection Hj1 as <-.
      assert (Hsame : aget bytes_eqb f (se_subs s) <> None -> wf_str f) by (intros; eapply (td_subs v w Ht); eauto).
      inversion Hch as [e0 s0|c k u a resume s0|c k s0 s1 b1 r Hd Hss Hpi|c k s0 s1 b1 er Hd Hss Hpi|c d s0|c g s0 s1 r Hss Hpo|c s0]; subst;
        try (apply Hsame; exact Hf).
      + apply Hsame. rewrite begin_subs in Hf. exact Hf.
      + destruct (process_subs _ _ _ _ _ _ _ f Hpi Hn Hf); auto.
      + destruct (process_subs _ _ _ _ _ _ _ f Hpi Hn Hf); auto.
      + apply Hsame. destruct (outgoing_parts _ _ _ _ _ Hpo) as (_ & Ho & _). auto.
    - apply nth_error_None in Ej. pose proof (Hnew j s' Hj Ej) as Hcr.
      inversion Hcr as [c k u subs wl infl s b b' _ Hns Ha He Hb1 Hb2 Hrs|c k u subs wl infl _ Hns Ha He]; subst.
      + assert (Hf2 : aget bytes_eqb f (se_subs s) <> None) by (destruct wl; exact Hf). clear Hf.
        destruct (restore_spec _ _ _ _ _ Hrs) as (R1 & _). rewrite begin_subs in R1.
        destruct (in_dec bytes_dec f subs) as [Hin|Hin]; [|rewrite R1 in Hf2 by auto; contradiction].
        rewrite (entered_restored _ _ _ _ _ _ _ He) in Hin. pose proof (Hres k) as HF. rewrite Forall_forall in HF. auto.
      + rewrite begin_subs in Hf. contradiction. }
  constructor; auto.
  - intros j s' Hj. destruct (nth_error (w_heap w) j) as [s|] eqn:Ej.
    + destruct (Hh j s Ej) as (s1 & Hj1 & Hch). rewrite Hj in Hj1. injection Hj1 as <-.
      pose proof (td_ver v w Ht j s Ej) as Hs.
      inversion Hch as [e0 s0|c k u a resume s0|c k s0 s1 b1 r Hd Hss Hpi|c k s0 s1 b1 er Hd Hss Hpi|c d s0|c g s0 s1 r Hss Hpo|c s0]; subst; auto.
      * rewrite begin_version. exact Hv.
      * rewrite (process_connect _ _ _ _ _ _ _ Hpi). reflexivity.
      * simpl. rewrite (process_connect _ _ _ _ _ _ _ Hpi). reflexivity.
      * destruct (outgoing_parts _ _ _ _ _ Hpo) as (_ & _ & -> & _). reflexivity.
    + apply nth_error_None in Ej. pose proof (Hnew j s' Hj Ej) as Hcr.
      inversion Hcr as [c k u subs wl infl s b b' _ Hns Ha He Hb1 Hb2 Hrs|c k u subs wl infl _ Hns Ha He]; subst.
      * destruct (restore_spec _ _ _ _ _ Hrs) as (_ & _ & _ & _ & _ & _ & _ & (Hc & _)).
        assert (E : c_protocol_version (se_connect s) = c_protocol_version k); [|cbn in Hv; rewrite <- Hv; destruct wl; exact E].
        rewrite Hc, begin_version. reflexivity.
      * rewrite begin_version. exact Hv.
  - intros cid st Hx. destruct (Hs1 cid st Hx) as [Hy|[(c & k & u & -> & Hy)|(c & k & i & s' & -> & Hc & Hi & -> & Hy)]].
    + eapply (td_sess v w Ht); eauto.
    + rewrite Hy. apply Hres.
    + rewrite Hy. apply Forall_forall. intros f Hf.
      assert (Hsub : subscribed s' f) by exact Hf. rewrite subscribed_aget in Hsub. eapply Hsubs; eauto.
  - intros cid pid i Hx. destruct (Hs3 cid pid i Hx) as [Hy|(c & f & s & s' & p & -> & Hss & Hpo & -> & Hpid & ->)].
    + eapply (td_infl v w Ht); eauto.
    + simpl. unfold served_session in Hss. destruct (aget Nat.eqb c (w_conns w)) as [j|]; [|discriminate].
      destruct (outgoing_parts _ _ _ _ _ Hpo) as (Hf & _ & _ & Hp). destruct (Hp p eq_refl) as (m & ->).
      eapply (td_subs v w Ht); eauto.
Qed.

(** ** What is sent *)

(** Fields of the packets sent to clients of version [v]. *)
Definition proper (v : version) (k : packet) : Prop :=
  match k with
  | ConnAck a => ca_protocol_version a = v /\ owf (fun q => exists u, wf_str u /\ q = assigned_props u) (ca_properties a)
  | Publish b => wf_str (pb_topic b) /\ pb_qos b <> QInvalid /\ owf is_bytes (pb_payload b) /\ pb_properties b = None /\
      match pb_packet_id b with Some i => pb_qos b <> AtMostOnce /\ wf_id i | None => True end
  | PubAck a | PubRec a | PubRel a | PubComp a => wf_id (ak_packet_id a) /\ ak_reason a = Success /\ ak_properties a = None
  | SubAck s => sa_protocol_version s = v /\ wf_id (sa_packet_id s) /\ sa_properties s = None /\
      Forall (fun r => r = GrantedQoS0 \/ r = TopicFilterInvalid) (sa_payload s)
  | UnsubAck s => ua_protocol_version s = v /\ wf_id (ua_packet_id s) /\ ua_properties s = None
  | PingResp => True
  | Auth _ => True
  | _ => False
  end.

Lemma answer_proper v am k s b x s' b' : process_incoming am k s b = (Ok (Some x), s', b') -> (forall d, k <> Disconnect d) -> received k ->
  c_protocol_version (se_connect s) = v -> proper v x.
Proof.
  intros H Hd Hr Hv. destruct k; simpl in H; try discriminate.
  - unfold handle_publish in H. destruct (validate_publish_topic _); [discriminate|]. apply received_publish in Hr. destruct Hr as [Hr _].
    destruct (pb_qos _); [|destruct (pb_packet_id _)|destruct (pb_packet_id _)|]; inv H; cbn; auto.
  - inv H. cbn. split; auto. eapply received_ack; [|exact Hr]. auto.
  - inv H. cbn. split; auto. eapply received_ack; [|exact Hr]. auto.
  - unfold handle_subscribe in H. destruct (subscribe_loop _ _ _) as [[rs subs] b1] eqn:E. inv H. cbn.
    apply received_subscribe in Hr. split; auto. split; [apply Hr|]. split; auto.
    destruct (subscribe_loop_spec _ _ _ _ _ _ E) as (HF & _). clear - HF. induction HF as [|fo r l rs H HF IH]; constructor; auto.
    destruct (validate_subscribe_filter _); auto.
  - unfold handle_unsubscribe in H. destruct (unsubscribe_loop _ _) as [rs subs]. inv H. cbn.
    apply received_unsubscribe in Hr. auto.
  - inv H. exact I.
  - exfalso. eapply Hd; eauto.
  - destruct (handle_auth am a s) as [r1 s1] eqn:E. inv H. unfold handle_auth in E. destruct am; [|discriminate].
    repeat case_match; inv E; exact I.
Qed.

Lemma entered_version k w i subs wl infl s : entered k w i subs wl infl s -> c_protocol_version (se_connect s) = c_protocol_version k.
Proof. intros []; reflexivity. Qed.

Lemma step_sent_proper cfg v h w e w' o c k : tidy v w -> prov h w -> Forall from_network h -> from_network e -> speaks v e ->
  step cfg w e = (w', o) -> In (Sent c k) o -> proper v k.
Proof.
  intros Ht Hp HF Hn Hv H Hin. assert (Hpub : forall q, k = Publish q -> wf_str (pb_topic q) -> pb_properties q = None -> proper v k).
  { intros q -> Hs Hq. destruct (step_sent_prov _ _ _ _ _ _ _ _ Hp H Hin) as (m & Ho & D1 & D2 & D3 & D4).
    pose proof (origin_fields h m HF Ho) as (F1 & F2 & F3). cbn. rewrite D2, D3, D4. auto. }
  apply step_inv in H.
  destruct H as [(_ & -> & _)|[(d&x&_&_&_&_&->)|[(d&x&u&a&->&Hns&H)|[(d&i&s&x&_&_&_&->)|[(d&i&s&x&->&Hs&Hk&H)|[(d&i&s&f&->&Hs&H)|[(d&i&s&_&_&_&->)|[(d&i&s&_&_&_&->)|(_&_&->)]]]]]]]];
    try (simpl in Hin; intuition discriminate).
  - unfold connect_step in H. destruct (negb (authenticated cfg x)).
    { inv H. simpl in Hin. destruct Hin as [Hin|[Hin|[]]]; [|discriminate]. injection Hin as <- <-. cbn. auto. }
    destruct (start_session u a x w) as [[ack r] w1] eqn:Est.
    destruct (start_session_spec _ _ _ _ _ _ _ (td_wf v w Ht) Est) as (i & subs & wl & infl & s & He' & Hack & Hr & Hnn & _).
    destruct a; subst r; [|inv H; simpl in Hin; intuition discriminate]. simpl in H. rewrite Hnn in H.
    destruct (restore_subscriptions _ _ (w_broker w1)). inversion H; subst o; clear H.
    destruct Hin as [Hin|Hin].
    { injection Hin as <- <-. rewrite Hack. pose proof (entered_version _ _ _ _ _ _ _ He') as Hver. cbn in Hv, Hn.
      unfold begin. destruct (cl_client_id _); cbn; (split; [congruence|]); [|exact I].
      destruct (supports_properties _); cbn; [|exact I]. exists u. split; [apply Hn|reflexivity]. }
    apply in_map_iff in Hin. destruct Hin as (y & Hy & Hyi). injection Hy as <- <-.
    eapply Hpub; [reflexivity| |reflexivity]. cbn.
    inversion He' as [|? ? ? E1 E2 E3 E4]; subst; [contradiction|].
    destruct (cf_clean_start (c_flags x)); [destruct (E3 eq_refl) as (_ & _ & ->); contradiction|].
    destruct (E4 eq_refl) as (_ & _ & ->). destruct (mem_load_session _ _); [|contradiction].
    unfold mem_get_all_inflight in Hyi. destruct (aget bytes_eqb (cl_client_id (c_payload x)) (ms_inflight (w_store w))) as [l|] eqn:El; [|contradiction].
    unfold avals in Hyi. apply in_map_iff in Hyi. destruct Hyi as ((p & z) & <- & Hin).
    eapply (td_infl _ w Ht). exists l. eauto.
  - unfold packet_step in H. destruct (process_incoming (sv_manager cfg) x s (w_broker w)) as [[r s1] b1] eqn:E.
    destruct r as [[z|]| |]; inversion H; subst o; clear H; simpl in Hin; try (intuition discriminate).
    destruct Hin as [Hin|[]]. injection Hin as <- <-. eapply answer_proper; eauto. destruct Hs as [_ Hs]. eapply (td_ver v w Ht); eauto.
  - unfold out_step in H. destruct (process_outgoing f s (w_broker w)) as [[r s1]|] eqn:E.
    2:{ inv H. contradiction. }
    destruct r as [p| |]; inversion H; subst o; clear H; simpl in Hin; try (intuition discriminate).
    destruct Hin as [Hin|[]]. injection Hin as <- <-. destruct Hs as [_ Hs].
    destruct (outgoing_parts _ _ _ _ _ E) as (Hf & _ & _ & Ho). destruct (Ho p eq_refl) as (m & ->).
    eapply Hpub; [reflexivity| |reflexivity]. cbn. eapply (td_subs v w Ht); eauto.
  - apply in_map_iff in Hin. destruct Hin as (x & Hx & _). discriminate.
Qed.

Lemma run_sent_proper cfg v es : forall h w c k, tidy v w -> prov h w -> Forall from_network h -> Forall from_network es -> Forall (speaks v) es ->
  In (Sent c k) (snd (run cfg es w)) -> proper v k.
Proof.
  induction es as [|e es IH]; intros h w c k Ht Hp HF Hn Hv Hin; [contradiction|].
  inversion Hn as [|? ? Hn1 Hn2]; subst. inversion Hv as [|? ? Hv1 Hv2]; subst.
  rewrite run_cons in Hin. cbn [snd] in Hin. destruct (step cfg w e) as [w1 o1] eqn:E. cbn [fst snd] in Hin.
  apply in_app_or in Hin. destruct Hin as [Hin|Hin].
  - exact (step_sent_proper cfg v h w e w1 o1 c k Ht Hp HF Hn1 Hv1 E Hin).
  - apply (IH (h ++ [e]) w1 c k); auto.
    + eapply step_tidy; eauto.
    + eapply step_prov; eauto.
    + apply Forall_app. auto.
Qed.

(** ** What is sent is laid out as it should *)
Lemma ofits_none {A} (lst : A -> list property) : ofits lst None.
Proof. split; [constructor|]. vm_compute. discriminate. Qed.
Lemma proper_fits v k : proper v k -> (forall a, k <> Auth a) -> props_fit k.
Proof.
  destruct k; cbn [proper props_fit]; try tauto.
  - intros [_ H] _. destruct (ca_properties c) as [q|]; cbn in *; [|apply ofits_none]. destruct H as (u & Hu & ->).
    assert (El : connack_props_list (assigned_props u) = [PAssignedClientIdentifier u]) by reflexivity.
    unfold ofits, oenc. rewrite El. split; [constructor; [exact Hu|constructor]|].
    destruct Hu as [_ Hu]. unfold props_enc. cbn [flat_map]. rewrite app_nil_r. unfold prop_enc. rewrite blen_app.
    change (blen (vbi_enc (prop_id (PAssignedClientIdentifier u)))) with 1. cbn [prop_val_enc]. rewrite blen_str_enc.
    unfold str_size, vbi_max. lia.
  - intros (_ & _ & _ & -> & _) _. apply ofits_none.
  - intros (_ & _ & ->) _. apply ofits_none.
  - intros (_ & _ & ->) _. apply ofits_none.
  - intros (_ & _ & ->) _. apply ofits_none.
  - intros (_ & _ & ->) _. apply ofits_none.
  - intros (_ & _ & -> & _) _. apply ofits_none.
  - intros (_ & _ & ->) _. apply ofits_none.
  - intros _ H. exfalso. eapply H; eauto.
Qed.

(** An acknowledgement without reason and properties is the same in all versions. *)
Lemma ack_wire i : wf_id i -> forall bs h, bs = [h; 2; i / 256; i mod 256] -> forall v,
  exists body, frame h body bs /\ ack_field v (Mk_ack_packet i Success None) body.
Proof.
  intros Hi bs h -> v. exists [i / 256; i mod 256]. split.
  - exists [2]. split; [reflexivity|]. apply varint_iff. split; [vm_compute; discriminate|reflexivity].
  - exists [i / 256; i mod 256], []. split; [reflexivity|]. split; [apply int2_iff; split; auto|]. left. auto.
Qed.

Lemma proper_wire v k : proper v k -> ~ exceptional v k ->
  exists bs, packet_enc k = Ok bs /\ (blen bs <= max_frame -> wire v (canon k) bs).
Proof.
  intros Hp He. assert (Ha : forall a, k <> Auth a) by (intros a ->; apply He; exact I).
  destruct (packet_enc_total k (proper_fits v k Hp Ha)) as (bs & Hb). exists bs. split; [exact Hb|]. intros Hm.
  destruct k; cbn [proper] in Hp; try contradiction.
  - destruct Hp as [<- Hq]. apply packet_conform with (k := ConnAck c); auto. 
    + cbn. destruct (ca_properties c) as [q|]; [|exact I]. destruct Hq as (u & Hu & ->). cbn. split; [|discriminate].
      change (connack_props_list (assigned_props u)) with [PAssignedClientIdentifier u]. constructor; [exact Hu|constructor].
    + exact I.
  - destruct Hp as (H1 & H2 & H3 & H4 & H5). cbn in He.
    assert (Hv : v = V5) by (destruct v; auto; exfalso; apply He; left; discriminate). subst v.
    apply (packet_conform (Publish b)); auto. cbn. split; auto. split; auto. rewrite H4. split; [|exact I].
    destruct (pb_packet_id b) as [i|]; [destruct (pb_qos b); tauto|].
    destruct (pb_qos b); auto; apply He; right; (split; [discriminate|reflexivity]).
  - destruct a as [i r q]. cbn in Hp. destruct Hp as (Hi & -> & ->). apply (ack_wire i Hi). apply Ok_inj in Hb. rewrite Hb. reflexivity.
  - destruct a as [i r q]. cbn in Hp. destruct Hp as (Hi & -> & ->). apply (ack_wire i Hi). apply Ok_inj in Hb. rewrite Hb. reflexivity.
  - destruct a as [i r q]. cbn in Hp. destruct Hp as (Hi & -> & ->). apply (ack_wire i Hi). apply Ok_inj in Hb. rewrite Hb. reflexivity.
  - destruct a as [i r q]. cbn in Hp. destruct Hp as (Hi & -> & ->). apply (ack_wire i Hi). apply Ok_inj in Hb. rewrite Hb. reflexivity.
  - destruct Hp as (<- & H2 & H3 & H4). apply (packet_conform (SubAck s)); auto.
    + cbn. rewrite H3. split; auto. split; [exact I|]. intros E. apply He. cbn. auto.
    + cbn. intros Hv. rewrite Forall_forall in *. intros r Hr. destruct (H4 r Hr) as [-> | ->]; [cbn; auto|].
      exfalso. apply He. cbn. auto.
  - destruct Hp as (<- & H2 & H3). apply (packet_conform (UnsubAck s)); auto; [|exact I].
    cbn. rewrite H3. split; auto. split; [exact I|]. intros E. apply He. cbn. auto.
  - cbn in Hb. injection Hb as <-. cbn. exists [0]. split; [reflexivity|]. apply varint_iff. split; [vm_compute; discriminate|reflexivity].
Qed.

(** ** PUBLISH to a client of version 3 *)
Lemma proper_publish_v3 v b : proper v (Publish b) -> v <> V5 -> (pb_qos b <> AtMostOnce -> pb_packet_id b <> None) ->
  exists bs, packet_enc (Publish b) = Ok bs /\ (blen bs <= max_frame ->
    wire v (Publish (Mk_publish_packet (pb_dup b) (pb_qos b) (pb_retain b) (pb_topic b) (pb_packet_id b) None (Some (0 :: obytes (pb_payload b))))) bs).
Proof.
  intros Hp Hv Hid. destruct (packet_enc_total (Publish b) (proper_fits v (Publish b) Hp ltac:(discriminate))) as (bs & Hb).
  exists bs. split; [exact Hb|]. intros Hm. destruct Hp as (H1 & H2 & H3 & H4 & H5).
  cbn [packet_enc] in Hb. apply publish_framed in Hb. destruct Hb as (psz & Hf & Hps).
  pose proof (frame_intro _ _ _ Hf Hm) as Hfr. clear Hf Hm. rewrite H4 in *. cbn in Hps. subst psz.
  cbn [wire pb_dup pb_qos pb_retain pb_topic pb_packet_id pb_properties pb_payload].
  exists (qos_u8 (pb_qos b)), (str_enc (pb_topic b)), (opt_enc u16_enc (pb_packet_id b)), [], (0 :: obytes (pb_payload b)).
  unfold publish_body in Hfr. rewrite H4 in Hfr. split; [|split; [|split; [|split; [|split; [|split]]]]].
  - replace (0x30 + 8 * bit (pb_dup b) + 2 * qos_u8 (pb_qos b) + bit (pb_retain b)) with (publish_header b); [exact Hfr|].
    unfold publish_header. destruct (pb_dup b), (pb_qos b), (pb_retain b); try congruence; reflexivity.
  - unfold qos_bits. destruct (pb_qos b); try congruence; cbn; auto.
  - apply string_iff. auto.
  - destruct (pb_qos b), (pb_packet_id b); try congruence; try tauto; cbn [opt_enc]; auto;
      try (exfalso; apply Hid; congruence); eexists; (split; [apply int2_iff; split; [apply H5|reflexivity]|reflexivity]).
  - destruct v; [split; reflexivity|split; reflexivity|congruence].
  - reflexivity.
  - constructor; [unfold is_byte; lia|]. destruct (pb_payload b); [exact H3|constructor].
Qed.

(** ** Bytes that are no packets *)

(** A will with QoS 1 and without payload, on topic "x", written without packet identifier. *)
Lemma publish_no_id_not_wire : forall k, ~ wire V5 k [0x32; 4; 0; 1; 120; 0].
Proof.
  intros k Hw. destruct (wire_first _ _ _ Hw) as (h & n & t & E & _ & Hk).
  injection E as <- _. destruct k; cbn [first_byte] in Hk; try lia. clear Hk.
  destruct Hw as (q & topic & id & ps & d & Hf & Hq & Ht & Hi & _). apply frame_short in Hf; [|lia]. destruct Hf as (Eh & _ & E).
  assert (Hne : pb_qos b <> AtMostOnce).
  { intros Eq. rewrite Eq in Hq. unfold qos_bits in Hq. cbn in Hq.
    assert (q = 0) by (destruct Hq as [Hq|[Hq|[Hq|[]]]]; congruence). subst q. destruct (pb_dup b), (pb_retain b); cbn in Eh; lia. }
  destruct Ht as (l & -> & Hl & _). destruct Hl as (x & y & -> & Hx & Hy & Hlen). cbn [app] in E.
  assert (Hid : exists i j, id = [i; j]).
  { destruct (pb_qos b); [congruence| | |]; destruct Hi as (i & (a1 & a2 & -> & _) & _); eauto. }
  destruct Hid as (i & j & ->). injection E as -> -> E. destruct (pb_topic b) as [|c1 [|c2 s]].
  - discriminate.
  - discriminate.
  - rewrite !blen_cons in Hlen. lia.
Qed.
(** SUBACK without codes, or of version 3 to a client of version 5. *)
Lemma suback_empty_not_wire : forall k, ~ wire V5 k [0x90; 3; 0; 7; 0].
Proof.
  intros k Hw. destruct (wire_first _ _ _ Hw) as (h & n & t & E & _ & Hk).
  injection E as <- _. destruct k; cbn [first_byte] in Hk; try lia. clear Hk.
  destruct Hw as (_ & id & ps & rs & Hf & Hid & Hps & Hrs & Hne). apply frame_short in Hf; [|lia]. destruct Hf as (_ & _ & E).
  destruct Hid as (a & b & -> & _). destruct Hps as (l & (m & body & -> & Hm & _) & _).
  destruct Hm as [Hd _]. cbn in E. injection E as _ _ E. destruct m as [|m0 m]; [inv Hd|]. cbn in E. injection E as _ E.
  destruct m; [|discriminate]. destruct body; [|discriminate]. cbn in E. subst rs.
  inversion Hrs as [Ha Hb|a0 l0 x0 bs0 Hx Hr0 Ha Hb]; [congruence|]. destruct Hx as (c & Ex & _). rewrite Ex in Ha. discriminate.
Qed.
Lemma suback_refused_not_wire : forall v k, v <> V5 -> ~ wire v k [0x90; 3; 0; 7; 0x8F].
Proof.
  intros v k Hv Hw. destruct (wire_first _ _ _ Hw) as (h & n & t & E & _ & Hk).
  injection E as <- _. destruct k; cbn [first_byte] in Hk; try lia. clear Hk.
  destruct Hw as (_ & id & ps & rs & Hf & Hid & Hps & Hrs & _). apply frame_short in Hf; [|lia]. destruct Hf as (_ & _ & E).
  assert (Ep : ps = []) by (destruct v; [apply Hps|apply Hps|congruence]). subst ps. cbn [app] in E.
  destruct Hid as (a & b & -> & _). injection E as _ _ E. inv Hrs; [discriminate|].
  destruct H0 as (c & -> & Hc). injection H1 as E _. subst c.
  destruct v; [| |congruence]; cbn in Hc; destruct Hc as [Hc|[Hc|[Hc|[Hc|[]]]]]; discriminate.
Qed.
(** Nothing longer than the longest packet is a packet. *)
Lemma wire_len v k bs : wire v k bs -> blen bs <= 5 + vbi_max.
Proof.
  intros H.
  assert (Hfr : forall h body, frame h body bs -> blen bs <= 5 + vbi_max).
  { intros h body Hf. apply frame_inv in Hf. destruct Hf as [Hb ->]. rewrite blen_cons, blen_app. pose proof (vbi_enc_len _ Hb). lia. }
  destruct k; cbn [wire] in H;
    repeat match goal with
    | H : exists _, _ |- _ => destruct H
    | H : _ /\ _ |- _ => destruct H
    | H : frame _ _ _ |- _ => exact (Hfr _ _ H)
    end.
Qed.
