(** Properties C28-C30, C62 and C63: what subscribers are sent.
    Every theorem is followed by a concrete case meeting its hypotheses. *)
From Coq Require Import String.
From Verif Require Import Base Utf8 Codec SpecCodec Tac CodecFacts Str Maps Topic SpecTopic TopicFacts Property PacketProps Packets
  TopicTree TreeFacts Storage StorageFacts Broker SpecBroker BrokerFacts Auth Session Server SpecServer SessionFacts ServerFacts HandlerFacts
  HistoryFacts ProvenanceFacts WorldFacts DeliveryFacts Examples.

(** ** C28: false for filters with wildcards, which are sent instead of the topic. *)
Lemma no_wildcard_match fl tl : level_match fl tl -> ~ In [35] fl -> ~ In [43] fl -> fl = tl.
Proof.
  induction 1; simpl; intros H1 H2; auto; try (exfalso; auto; fail). f_equal. auto.
Qed.
Lemma join_in (l : bytes) ls x : In l ls -> In x l -> In x (join ls).
Proof.
  induction ls as [|l0 ls IH]; [contradiction|]. intros [->|H] Hx.
  - destruct ls; simpl; auto. apply in_or_app. auto.
  - destruct ls as [|l1 ls]; [contradiction|]. change (In x (l0 ++ 47 :: join (l1 :: ls))). apply in_or_app. right. right. auto.
Qed.
Lemma exact_match f t : matches f t -> ~ In 35 f -> ~ In 43 f -> f = t.
Proof.
  intros (fl & tl & (H1 & -> & H2) & (H3 & -> & H4) & Hm) N1 N2. f_equal. apply no_wildcard_match; auto.
  - intros Hin. apply N1. eapply join_in; eauto. left. reflexivity.
  - intros Hin. apply N2. eapply join_in; eauto. left. reflexivity.
Qed.
(** Proved: every PUBLISH sent carries the payload of a message published before on a topic
    matching the topic it names, and names that topic if it was sent for a filter without
    wildcards. Missing: the topic for filters with wildcards. *)
Theorem C28_delivered_message_partial cfg es e w' o c q :
  step cfg (fst (run cfg es world_new)) e = (w', o) -> In (Sent c (Publish q)) o ->
  exists m, origin es m /\ pb_payload q = mg_payload m /\ matches (pb_topic q) (mg_topic m)
    /\ (~ In 35 (pb_topic q) -> ~ In 43 (pb_topic q) -> pb_topic q = mg_topic m).
Proof.
  intros H Hin. destruct (step_sent_prov cfg es _ e w' o c q (run_prov cfg es [] world_new prov_new) H Hin) as (m & Hm & H1 & H2 & _).
  exists m. repeat split; auto. intros N1 N2. apply exact_match; auto.
Qed.
Print Assumptions C28_delivered_message_partial.
Definition ex_deliver := [ex_first 1 (ex_connect "a" true); ex_first 2 (ex_connect "b" true); ex_sub 1 "x/y"; ex_sub 1 "x/+";
  ex_pub 2 AtLeastOnce (Some 5) "x/y" "v"].
Example C28_ex : exists q, snd (step ex_open (fst (run ex_open ex_deliver world_new)) (EOut 1 (str "x/y"))) = [Sent 1 (Publish q)]
  /\ pb_topic q = str "x/y" /\ pb_payload q = Some (str "v").
Proof. eexists. split; [vm_compute; reflexivity|]. split; reflexivity. Qed.
Theorem C28_delivered_topic_refuted : exists cfg es e c q,
  In (Sent c (Publish q)) (snd (step cfg (fst (run cfg es world_new)) e))
  /\ (exists m, origin es m) /\ forall m, origin es m -> pb_topic q <> mg_topic m.
Proof.
  exists ex_open, ex_deliver, (EOut 1 (str "x/+")), 1%nat. eexists. split; [vm_compute; left; reflexivity|]. split.
  - eexists. apply (or_publish _ 2 (ex_publish AtLeastOnce (Some 5) false "x/y" "v") false). simpl. auto 10.
  - intros m Hm. destruct Hm as [c p r Hin|c k u a t r Hin Hf Ht].
    + simpl in Hin. repeat (destruct Hin as [Hin|Hin]; [inversion Hin; subst; vm_compute; discriminate|]). contradiction.
    + simpl in Hin. repeat (destruct Hin as [Hin|Hin]; [inversion Hin; subst; discriminate|]). contradiction.
Qed.
Print Assumptions C28_delivered_topic_refuted.

(** ** C29: false. QoS 0 is granted and QoS 2 delivered. *)
Theorem C29_granted_qos_refuted : exists cfg es c f q opts r,
  In (EPacket c (Subscribe (Mk_subscribe_packet 7 None [(f, opts)]))) es /\ so_qos opts = AtMostOnce
  /\ snd (run cfg es world_new) = r ++ [Sent c (Publish q)]
  /\ In (Sent c (SubAck (Mk_suback_packet V5 7 None [GrantedQoS0]))) r
  /\ pb_topic q = f /\ pb_qos q = ExactlyOnce.
Proof.
  exists ex_open, [ex_first 1 (ex_connect "a" true); ex_first 2 (ex_connect "b" true); ex_sub 1 "x/y";
    ex_pub 2 ExactlyOnce (Some 5) "x/y" "v"; EOut 1 (str "x/y")], 1%nat, (str "x/y"). eexists. exists ex_options, 
   (snd (run ex_open [ex_first 1 (ex_connect "a" true); ex_first 2 (ex_connect "b" true); ex_sub 1 "x/y";
    ex_pub 2 ExactlyOnce (Some 5) "x/y" "v"] world_new)).
  split; [simpl; auto|]. split; [reflexivity|]. split; [vm_compute; reflexivity|]. split; [vm_compute; auto|].
  split; reflexivity.
Qed.
Print Assumptions C29_granted_qos_refuted.
(** Proved: the QoS delivered is that of the publication, so it does not exceed the granted
    QoS (always 0) if all publications and wills have QoS 0. Missing: lowering the QoS. *)
Theorem C29_qos_of_publication_partial cfg es e w' o c q :
  step cfg (fst (run cfg es world_new)) e = (w', o) -> In (Sent c (Publish q)) o ->
  (exists m, origin es m /\ pb_payload q = mg_payload m /\ pb_qos q = mg_qos m)
  /\ ((forall m, origin es m -> mg_qos m = AtMostOnce) -> pb_qos q = AtMostOnce).
Proof.
  intros H Hin. destruct (step_sent_prov cfg es _ e w' o c q (run_prov cfg es [] world_new prov_new) H Hin) as (m & Hm & H1 & H2 & H3 & _).
  split; [exists m; auto|]. intros Hq. rewrite H3. auto.
Qed.
Print Assumptions C29_qos_of_publication_partial.
Example C29_ex : let es := [ex_first 1 (ex_connect_will "a" true "w" "gone"); ex_sub 1 "x/y"; ex_pub 1 AtMostOnce None "x/y" "v"] in
  (forall m, origin es m -> mg_qos m = AtMostOnce)
  /\ exists q, snd (step ex_open (fst (run ex_open es world_new)) (EOut 1 (str "x/y"))) = [Sent 1 (Publish q)].
Proof.
  split.
  - intros m Hm. destruct Hm as [c p r Hin|c k u a t r Hin Hf Ht];
      simpl in Hin; repeat (destruct Hin as [Hin|Hin]; [inversion Hin; subst; try reflexivity; discriminate|]); contradiction.
  - eexists. vm_compute. reflexivity.
Qed.

(** ** C30: false. Messages of two publishers reach a client with the same identifier; a will
    with QoS 1 is sent without one. *)
Definition ex_connect_will1 : connect_packet :=
  Mk_connect_packet V5 (Mk_connect_flags false false false AtLeastOnce true true) 60 None
    (Mk_connect_payload (str "d") None (Some (str "x/y")) (Some (str "gone")) None None).
Theorem C30_identifiers_refuted : exists cfg es c q1 q2 q3 r,
  snd (run cfg es world_new) = r ++ [Sent c (Publish q1); Sent c (Publish q2); Sent c (Publish q3)]
  /\ (forall k, ~ In (EPacket c (PubAck k)) es)
  /\ pb_qos q1 = AtLeastOnce /\ pb_qos q2 = AtLeastOnce /\ pb_packet_id q1 = Some 5 /\ pb_packet_id q2 = Some 5
  /\ pb_payload q1 <> pb_payload q2 /\ pb_qos q3 = AtLeastOnce /\ pb_packet_id q3 = None.
Proof.
  exists ex_open, [ex_first 1 (ex_connect "a" true); ex_first 2 (ex_connect "b" true); ex_first 3 (ex_connect "c" true);
    ex_first 4 ex_connect_will1; ex_sub 1 "x/y";
    ex_pub 2 AtLeastOnce (Some 5) "x/y" "v"; ex_pub 3 AtLeastOnce (Some 5) "x/y" "w"; EEnd 4;
    EOut 1 (str "x/y"); EOut 1 (str "x/y"); EOut 1 (str "x/y")], 1%nat. eexists. eexists. eexists.
  exists (snd (run ex_open [ex_first 1 (ex_connect "a" true); ex_first 2 (ex_connect "b" true); ex_first 3 (ex_connect "c" true);
    ex_first 4 ex_connect_will1; ex_sub 1 "x/y";
    ex_pub 2 AtLeastOnce (Some 5) "x/y" "v"; ex_pub 3 AtLeastOnce (Some 5) "x/y" "w"; EEnd 4] world_new)).
  split; [vm_compute; reflexivity|]. split; [intros k Hin; simpl in Hin; intuition discriminate|].
  repeat split; vm_compute; discriminate.
Qed.
Print Assumptions C30_identifiers_refuted.
(** Proved: a delivered PUBLISH has the identifier its publisher chose. So identifiers
    identify if the publishers' do. Missing: identifiers chosen by the broker. *)
Theorem C30_identifiers_partial cfg es c d q1 q2 :
  (forall m n, origin es m -> origin es n -> mg_packet_id m = mg_packet_id n -> mg_packet_id m <> None ->
     mg_payload m = mg_payload n /\ mg_topic m = mg_topic n) ->
  (forall m, origin es m -> mg_qos m <> AtMostOnce -> mg_packet_id m <> None /\ mg_packet_id m <> Some 0) ->
  In (Sent c (Publish q1)) (snd (run cfg es world_new)) -> In (Sent d (Publish q2)) (snd (run cfg es world_new)) ->
  (pb_qos q1 <> AtMostOnce -> pb_packet_id q1 <> None /\ pb_packet_id q1 <> Some 0)
  /\ (pb_packet_id q1 = pb_packet_id q2 -> pb_packet_id q1 <> None -> pb_payload q1 = pb_payload q2).
Proof.
  intros Hu Hz H1 H2.
  destruct (run_sent_prov cfg es [] world_new c q1 prov_new H1) as (m1 & Ho1 & _ & Hp1 & Hq1 & Hi1).
  destruct (run_sent_prov cfg es [] world_new d q2 prov_new H2) as (m2 & Ho2 & _ & Hp2 & Hq2 & Hi2).
  simpl in Ho1, Ho2. split.
  - rewrite Hq1, Hi1. auto.
  - rewrite Hi1, Hi2, Hp1, Hp2. intros E Hn. apply (Hu m1 m2 Ho1 Ho2 E Hn).
Qed.
Print Assumptions C30_identifiers_partial.
Example C30_ex : let es := ex_deliver ++ [EOut 1 (str "x/y"); EOut 1 (str "x/+")] in
  (forall m n, origin es m -> origin es n -> mg_packet_id m = mg_packet_id n -> mg_packet_id m <> None ->
     mg_payload m = mg_payload n /\ mg_topic m = mg_topic n)
  /\ (forall m, origin es m -> mg_qos m <> AtMostOnce -> mg_packet_id m <> None /\ mg_packet_id m <> Some 0)
  /\ exists q, In (Sent 1 (Publish q)) (snd (run ex_open es world_new)) /\ pb_qos q = AtLeastOnce.
Proof.
  cbv zeta. assert (H : forall m, origin (ex_deliver ++ [EOut 1 (str "x/y"); EOut 1 (str "x/+")]) m ->
    exists r, m = Mk_message (Some 5) (str "x/y") false AtLeastOnce r (Some (str "v"))).
  { intros m Hm. destruct Hm as [c p r Hin|c k u a t r Hin Hf Ht];
      simpl in Hin; repeat (destruct Hin as [Hin|Hin]; [inversion Hin; subst; try (exists r; reflexivity); discriminate|]); contradiction. }
  split; [|split].
  - intros m n Hm Hn. apply H in Hm. apply H in Hn. destruct Hm as [r ->], Hn as [r' ->]. auto.
  - intros m Hm _. apply H in Hm. destruct Hm as [r ->]. split; discriminate.
  - eexists. split; [vm_compute; do 5 right; left; reflexivity|]. reflexivity.
Qed.

(** ** C62: no packet that can be read makes the server panic. *)
Lemma parsed_publish_qos p v bs q r : parse_with_version p v bs = Ok (Publish q, r) ->
  pb_qos q <> QInvalid /\ (pb_packet_id q = None <-> pb_qos q = AtMostOnce).
Proof.
  unfold parse_with_version. destruct bs as [|h bs]; [discriminate|].
  assert (Hl : forall {A} (f : A -> packet) x, lift_packet f x = Ok (Publish q, r) -> (forall a, f a <> Publish q) -> False).
  { intros A f x H Hf. unfold lift_packet in H. inv_bind H. destruct a as [a r0]. inv H. eapply Hf. eauto. }
  destruct (h / 16) as [|[[[[]|[]|]|[[]|[]|]|]|[[[]|[]|]|[[]|[]|]|]|]];
    try discriminate; try (intros H; exfalso; eapply Hl; [exact H|intros; discriminate]).
  intros H. clear Hl. unfold lift_packet in H. inv_bind H. destruct a as [a r0]. injection H as -> ->.
  unfold publish_dec in Ha. inv_bind Ha. destruct a as [h0 r1].
  inv_bind Ha. destruct a as [len r2]. inv_bind Ha. destruct a as [topic r3]. inv_bind Ha. destruct a as [pid r4].
  inv_bind Ha. destruct a as [props r5]. inv_bind Ha. inv_bind Ha. inv_bind Ha.
  destruct (blen r5 <? _); [discriminate|]. injection Ha as <- <-. cbn [pb_qos pb_packet_id].
  destruct (qos_from _); try discriminate; try (apply bind_ok in Ha3; destruct Ha3 as ([n r6] & _ & Ha3)); injection Ha3 as <- <-;
    split; try discriminate; split; intros; try discriminate; reflexivity.
Qed.
Definition was_read (e : event) : Prop :=
  match e with EPacket _ k => exists p v bs r, parse_with_version p v bs = Ok (k, r) | _ => True end.
Lemma incoming_no_panic am k s b s' b' : process_incoming am k s b <> (Panic, s', b').
Proof.
  destruct k; simpl; try discriminate.
  - unfold handle_publish. destruct (validate_publish_topic _); [discriminate|].
    destruct (pb_qos _); [|destruct (pb_packet_id _)|destruct (pb_packet_id _)|]; discriminate.
  - unfold handle_subscribe. destruct (subscribe_loop _ _ _) as [[rs subs] bb]. discriminate.
  - unfold handle_unsubscribe. destruct (unsubscribe_loop _ _). discriminate.
  - unfold handle_auth. repeat case_match; try discriminate; intros H; inv H; discriminate.
Qed.
Theorem C62_no_panic cfg es e w' o c :
  Forall was_read es -> e <> EPanic c -> step cfg (fst (run cfg es world_new)) e = (w', o) -> ~ In (Crashed c) o.
Proof.
  intros Hr Hep H Hin. pose proof (run_prov cfg es [] world_new prov_new) as Hp. simpl in Hp.
  set (w := fst (run cfg es world_new)) in *. apply step_inv in H.
  destruct H as [(_ & -> & _)|[(d&k&_&_&_&_&->)|[(d&k&u&a&->&Hn&H)|[(d&i&s&x&_&_&_&->)|[(d&i&s&k&->&Hs&Hk&H)|[(d&i&s&f&->&Hs&H)|[(d&i&s&_&_&_&->)|[(d&i&s&->&_&_&->)|(_&_&->)]]]]]]]];
    try (simpl in Hin; intuition discriminate).
  - unfold connect_step in H. destruct (negb (authenticated cfg k)).
    { inv H. simpl in Hin. intuition discriminate. }
    destruct (start_session u a k w) as [[ak r] w1]. destruct r as [r|].
    2:{ inv H. simpl in Hin. intuition discriminate. }
    destruct (nth_error (w_heap w1) (sr_session r)).
    2:{ inv H. simpl in Hin. intuition discriminate. }
    destruct (restore_subscriptions _ _ _). inv H. destruct Hin as [Hin|Hin]; [discriminate|].
    apply in_map_iff in Hin. destruct Hin as (x & Hx & _). discriminate.
  - unfold packet_step in H. destruct (process_incoming _ _ _ _) as [[r s1] b1] eqn:Ep. destruct r as [x|er|].
    + injection H as <- <-. destruct x; simpl in Hin; intuition discriminate.
    + injection H as <- <-. simpl in Hin. intuition discriminate.
    + eapply incoming_no_panic. exact Ep.
  - unfold out_step in H. destruct (process_outgoing f s (w_broker w)) as [[r s2]|] eqn:Ep.
    2:{ inv H. contradiction. }
    unfold process_outgoing in Ep. destruct (aget bytes_eqb f (se_subs s)) as [st|] eqn:Ef; [|discriminate].
    destruct (stream_next _ st) as [[m st']|] eqn:En; [|discriminate].
    destruct (pv_subs es w Hp i s f st (proj2 Hs) Ef) as (_ & _ & Hret).
    destruct (stream_next_prov es _ _ _ _ _ En (log_prov es w f Hp) Hret) as [[Hm _] _].
    assert (Hok : exists p, r = Ok p).
    { destruct (mg_packet_id m) as [n|] eqn:Ei; [|inv Ep; eauto]. destruct (mg_qos m) eqn:Eq; inv Ep; eauto.
      exfalso. destruct Hm as [c0 p0 r0 Hin0|c0 k u a t r0 Hin0 Hf0 Ht0]; simpl in *; [|discriminate].
      rewrite Forall_forall in Hr. apply Hr in Hin0. destruct Hin0 as (pp & v & bs & rr & Hparse).
      apply parsed_publish_qos in Hparse. destruct Hparse as [Hx _]. contradiction. }
    destruct Hok as [p ->]. injection H as <- <-. simpl in Hin. intuition discriminate.
  - destruct Hin as [Hin|[]]. congruence.
  - apply in_map_iff in Hin. destruct Hin as (x & Hx & _). discriminate.
Qed.
Print Assumptions C62_no_panic.
Example C62_ex : exists bs r, parse Release bs = Ok (Publish (Mk_publish_packet false AtLeastOnce false (str "x/y") (Some 5)
    (Some publish_props_default) (Some (str "v"))), r)
  /\ Forall was_read [ex_first 1 (ex_connect "a" true);
       EPacket 1 (Publish (Mk_publish_packet false AtLeastOnce false (str "x/y") (Some 5) (Some publish_props_default) (Some (str "v"))))].
Proof.
  exists [50; 9; 0; 3; 120; 47; 121; 0; 5; 0; 118], [].
  split; [vm_compute; reflexivity|]. constructor; [exact I|]. constructor; [|constructor].
  exists Release, V5, [50; 9; 0; 3; 120; 47; 121; 0; 5; 0; 118], []. vm_compute. reflexivity.
Qed.

(** ** C63: order of delivery on a connection. While connection [c] is the only user of its
    session, and neither the connection is reopened, its client connects again, nor the
    filter is subscribed or unsubscribed on it, what [c] is sent for a filter is: the
    retained messages of the subscription, then the messages routed to the filter since, in
    the order in which they were routed, none twice; whatever the other clients do. *)
Theorem C63_delivery_in_order cfg es w c i id s f st :
  reachable cfg w -> unshared w c i id -> serves w c i s -> subscription s f st ->
  (forall e, In e es -> quiet c id f e) ->
  exists dn rest live, st_retained st = dn ++ rest
    /\ Forall2 (sent_as f) (deliveries c f (snd (run cfg es w))) (dn ++ live)
    /\ (rest <> [] -> live = [])
    /\ subseq live (skipn (st_next st) (sent_to (fst (run cfg es w)) f)).
Proof.
  intros Hr U Hs Hsub Hq.
  destruct (delivery_inv cfg es w c i id s f st (st_next st) [] (reachable_wf cfg w Hr) Hq U Hs Hsub) as (dn & rest & more & H1 & H2 & H3 & H4); auto.
  exists dn, rest, more. repeat split; auto. intros Hx. apply H3, Hx.
Qed.
Print Assumptions C63_delivery_in_order.
(** If moreover never more than 16 messages wait, none is skipped. *)
Theorem C63_delivery_complete cfg es w c i id s f st :
  reachable cfg w -> unshared w c i id -> serves w c i s -> subscription s f st ->
  (forall e, In e es -> quiet c id f e) -> keeps_up cfg w c f st es ->
  let sent := deliveries c f (snd (run cfg es w)) in
  Forall2 (sent_as f) sent (firstn (length sent) (st_retained st ++ skipn (st_next st) (sent_to (fst (run cfg es w)) f))).
Proof. intros Hr U Hs Hsub Hq Hk. eapply delivery_exact; eauto. apply (reachable_wf cfg w Hr). Qed.
Print Assumptions C63_delivery_complete.
(** And a waiting message is sent as soon as the subscription is polled. *)
Theorem C63_waiting_is_sent cfg w c i s f st :
  serves w c i s -> subscription s f st ->
  st_retained st <> [] \/ (st_next st < length (sent_to w f))%nat ->
  exists m, (In m (st_retained st) \/ In m (sent_to w f)) /\
    (mg_qos m <> QInvalid -> exists w' q, step cfg w (EOut c f) = (w', [Sent c (Publish q)]) /\ sent_as f q m).
Proof.
  intros Hs Hsub Hw. rewrite (step_out _ _ _ i s) by auto. unfold out_step, process_outgoing. red in Hsub. rewrite Hsub.
  assert (Hn : exists m st', stream_next (sent_to w f) st = Some (m, st') /\ (In m (st_retained st) \/ In m (sent_to w f))).
  { rewrite stream_next_eq. destruct (st_retained st) as [|m ms]; [|exists m, (Mk_stream ms (st_next st)); simpl; auto].
    destruct Hw as [Hw|Hw]; [congruence|].
    destruct (nth_error (sent_to w f) (Nat.max (st_next st) (length (sent_to w f) - capacity))) as [m|] eqn:En.
    - exists m. eexists. split; [reflexivity|]. right. eapply nth_error_In. exact En.
    - exfalso. apply nth_error_None in En. unfold capacity in En. lia. }
  destruct Hn as (m & st' & Hn & Hin). exists m. split; auto. intros Hq. unfold sent_to in Hn. rewrite Hn.
  destruct (mg_packet_id m) as [n|] eqn:Ei.
  - destruct (mg_qos m) eqn:Eq; [| | |congruence]; (eexists; eexists; split; [reflexivity|]; repeat split; auto).
  - eexists. eexists. split; [reflexivity|]. repeat split; auto.
Qed.
Print Assumptions C63_waiting_is_sent.
Example C63_ex :
  let w := ex_world [ex_first 1 (ex_connect "a" true); ex_first 2 (ex_connect "b" true);
      EPacket 2 (Publish (ex_publish AtMostOnce None true "x/y" "r")); ex_sub 1 "x/+"] in
  let es := [ex_pub 2 AtMostOnce None "x/y" "v"; EOut 1 (str "x/+"); ex_pub 2 AtMostOnce None "x/z" "w"; EOut 1 (str "x/+");
      EEnd 2; EOut 1 (str "x/+")] in
  reachable ex_open w /\ unshared w 1 0 (str "a") /\ (forall e, In e es -> quiet 1 (str "a") (str "x/+") e) /\
  exists s st, serves w 1 0 s /\ subscription s (str "x/+") st /\ length (st_retained st) = 1%nat
    /\ map pb_payload (deliveries 1 (str "x/+") (snd (run ex_open es w))) = [Some (str "r"); Some (str "v"); Some (str "w")]
    /\ keeps_up ex_open w 1 (str "x/+") st es.
Proof.
  cbv zeta. split; [eexists; reflexivity|]. split; [|split].
  - split; [reflexivity|intros d|intros x].
    + vm_compute. repeat (destruct d as [|d]; try discriminate; auto).
    + intros H. destruct (bytes_eqb x (str "a")) eqn:E; [apply beqb_spec, E|]. exfalso. revert H.
      change (aget bytes_eqb x [(str "a", 0%nat); (str "b", 1%nat)] = Some 0%nat -> False). cbn [aget]. rewrite E.
      destruct (bytes_eqb x (str "b")); intros H; discriminate.
  - intros e He. simpl in He. repeat (destruct He as [<-|He]; [
      split; [discriminate|]; split; [intros (c & k & u & a & H & _); discriminate|];
      split; [intros [(p & H & _)|(p & H & _)]; discriminate|intros (k & u & a & H); discriminate]|]). contradiction.
  - eexists. eexists. split; [split; vm_compute; reflexivity|]. split; [vm_compute; reflexivity|].
    split; [reflexivity|]. split; [vm_compute; reflexivity|].
    intros es1 es2 H.
    assert (Hn : es1 = firstn (length es1) (es1 ++ es2)) by (rewrite firstn_app, firstn_all, Nat.sub_diag; simpl; rewrite app_nil_r; reflexivity).
    rewrite <- H in Hn. rewrite Hn. 
    destruct (length es1) as [|[|[|[|[|[|[|n]]]]]]]; vm_compute; lia.
Qed.
