(** Properties C92 and C93: wills, and the order of messages of different publishers, when handlers run at the same time.
    Every theorem is followed by a concrete case meeting its hypotheses. *)
From Coq Require Import String.
From Verif Require Import Base Utf8 Codec SpecCodec Tac CodecFacts Str Maps Topic SpecTopic TopicFacts Property PacketProps Packets
  TopicTree TreeFacts Storage StorageFacts Broker SpecBroker BrokerFacts Auth Session Server SpecServer SessionFacts ServerFacts HandlerFacts
  ResumeFacts Conc SpecConc ConcFacts ConcLocks ConcRoute ConcOwn ConcDeliver ConcWill Examples Properties_Routing Properties_Will Properties_Conc.

(** ** C92: wills *)
(** What [published_once] gives for filters that were granted. *)
Lemma granted_node {st0} cfg f pre e mid1 y tr post : mruns cfg (conf_on st0) (pre ++ IStart e :: mid1) y -> tr = pre ++ IStart e :: post ->
  (forall d, Forall texts (events_of d tr)) -> topic_filter f -> granted f pre -> node_at (levels f) (tree y) <> None.
Proof.
  intros Hy Htr Ht Hf G. apply mruns_app in Hy. destruct Hy as (z & Hz & Hy). eapply node_runs; [exact Hy|].
  destruct (granted_sub cfg f pre z Hz) as (d & n & Hi); [|exact Hf|exact G|].
  - intros d. eapply event_texts. rewrite <- Htr. apply Ht.
  - apply in_split in Hi. destruct Hi as (u & v & ->). eapply sub_node. exact Hz.
Qed.
Lemma will_once {st0} cfg c k u pre mid1 seg e mid2 post tr x f :
  mruns cfg (conf_on st0) tr x -> (forall d, Forall texts (events_of d tr)) -> lone c tr ->
  handled c (EFirst c (Some (Connect k)) u true) pre mid1 (seg ++ IStart e :: mid2 ++ IEnd c :: post) tr ->
  ~ opened c pre -> accepts cfg k -> cf_clean_start (c_flags k) = true \/ unfound c mid1 -> unclosed c seg ->
  event_of c e = true -> ~ In (IEnd c) mid2 ->
  (forall d, e <> EPacket c (Disconnect d)) -> (forall p, e = EPacket c (Publish p) -> ~ topic_name (pb_topic p)) ->
  (forall w, declares k w -> topic_name (wl_topic w) -> topic_filter f -> In (Closed c) (outputs_of c mid2) ->
     exists m, announces w m
       /\ (matches f (wl_topic w) -> granted f (pre ++ IStart (EFirst c (Some (Connect k)) u true) :: mid1 ++ IEnd c :: seg) -> routed_by c f mid2 = [m])
       /\ (~ matches f (wl_topic w) -> routed_by c f mid2 = [])) /\
  ((forall w, ~ declares k w) \/ ~ In (Closed c) (outputs_of c mid2) -> routed_by c f mid2 = []).
Proof.
  intros Hr Ht Hl Hh Ho Hacc Hcl Hun He Hend Hd Hp.
  destruct (connected _ _ _ _ _ _ _ _ _ Hr (Ht c) Hl Hh Ho Hacc Hcl) as (i & y & Hy & Hyx & Hv & Hi & Honly).
  pose proof Hh as (Htr & _ & _).
  set (before := pre ++ IStart (EFirst c (Some (Connect k)) u true) :: mid1 ++ IEnd c :: seg) in *.
  assert (Htr' : tr = before ++ IStart e :: mid2 ++ IEnd c :: post).
  { rewrite Htr. unfold before. rewrite <- !app_assoc. simpl. rewrite <- !app_assoc. reflexivity. }
  assert (Hh2 : handled c e before mid2 post tr) by (split; [exact Htr'|split; auto]).
  assert (Hstart : exists z, mruns cfg (conf_on st0) before z /\ idle c z /\ aget Nat.eqb c (w_conns (cn_world z)) = Some i /\
     (exists s, nth_error (w_heap (cn_world z)) i = Some s /\ se_will s = will_of_connect k) /\
     mruns cfg z (IStart e :: mid2 ++ IEnd c :: post) x).
  { apply mruns_app in Hyx. destruct Hyx as (z & Hz & Hzx). exists z.
    assert (Hiz : idle c z).
    { inversion Hzx as [|? m x1 ? ? ? Hs _]; subst. apply mstep_inv in Hs.
      destruct Hs as [(e' & -> & E & Hne & Hn & _)|[(d & -> & E & _)|(d & k0 & o & k1 & -> & E & _)]]; try discriminate. injection E as <-.
      rewrite event_of_conn in He by exact Hne. apply Nat.eqb_eq in He. rewrite He in Hn. exact Hn. }
    assert (Hsv : serving c i (will_of_connect k) z).
    { eapply serving_runs; [exact Hz|exact Hv| |exact Hun]. intros d s s' Hin. eapply Honly. rewrite Htr.
      apply in_or_app. right. right. apply in_or_app. right. right. apply in_or_app. left. exact Hin. }
    unfold serving in Hsv. rewrite Hiz in Hsv. destruct Hsv as [E1 E2]. repeat split; auto.
    unfold before. replace (mid1 ++ IEnd c :: seg) with ((mid1 ++ [IEnd c]) ++ seg) by (rewrite <- app_assoc; reflexivity).
    rewrite app_comm_cons, app_assoc. apply mruns_app. exists y. split; [exact Hy|exact Hz]. }
  assert (Htk : exists l0 l1, steps_of c mid2 = l0 ++ l1 /\ Forall nosend l0 /\
    (Forall nosend l1 \/ exists w, will_of_connect k = Some w /\ publishing (wl_topic w) (will_message w) l1) /\
    (forall w, will_of_connect k = Some w -> In (Closed c) (outputs_of c mid2) -> publishing (wl_topic w) (will_message w) l1) /\
    (In (Closed c) (outputs_of c mid2) \/ Forall nosend l1)).
  { destruct Hstart as (z & Hz & Hiz & E1 & E2 & Hzx). eapply (will_taken_at cfg c e mid2 post tr x i _ z); eauto.
    - rewrite Htr'. intros j Hj. apply in_or_app. right. right. exact Hj.
    - intros p E. specialize (Hp p E). intros Hvt. apply Hp. apply publish_topic_iff; [|exact Hvt].
      assert (Htx : texts e). { specialize (Ht c). rewrite Forall_forall in Ht. apply Ht. rewrite Htr', events_app. apply in_or_app. right. simpl. rewrite He. left. reflexivity. }
      rewrite E in Htx. exact Htx. }
  destruct Htk as (l0 & l1 & El & Hl0 & Hor & Hpub & Hcn). split.
  - intros w Hdw Htn Hf Hin. apply declares_iff in Hdw. exists (will_message w). split; [repeat split|].
    destruct (routed_once _ _ _ _ _ _ _ _ _ _ _ _ f Hr Hh2 El Hl0 (Hpub w Hdw Hin) Htn) as (z & m1 & m2 & Em & Hz & ->). split.
    + intros M G. destruct (matches_dec f (wl_topic w)); [|contradiction].
      pose proof (granted_node _ _ _ _ _ _ _ _ Hz Htr' Ht Hf G) as Hn. destruct (node_at (levels f) (tree z)); [reflexivity|congruence].
    + intros M. destruct (matches_dec f (wl_topic w)); [contradiction|reflexivity].
  - intros Hno. unfold routed_by. rewrite El. apply sent_by_none. apply Forall_app. split; [exact Hl0|].
    destruct Hno as [Hno|Hno]; [|destruct Hcn; [contradiction|assumption]].
    destruct Hor as [Hor|(w & Hw & _)]; [exact Hor|]. apply declares_iff in Hw. exfalso. eapply Hno. exact Hw.
Qed.
(** A client whose identifier nobody else uses connects with clean start and stays connected until an event [e] that is
    neither DISCONNECT nor a PUBLISH. If the broker closes the connection then, the will is published once to every
    matching filter granted before; and if the CONNECT declared no will or the connection stays open, nothing is published. *)
Theorem C92_will_once_partial {st0} cfg c k u pre mid1 seg e mid2 post tr x f :
  mruns cfg (conf_on st0) tr x -> (forall d, Forall texts (events_of d tr)) -> lone c tr ->
  handled c (EFirst c (Some (Connect k)) u true) pre mid1 (seg ++ IStart e :: mid2 ++ IEnd c :: post) tr ->
  ~ opened c pre -> accepts cfg k -> cf_clean_start (c_flags k) = true -> unclosed c seg ->
  event_of c e = true -> ~ In (IEnd c) mid2 ->
  (forall d, e <> EPacket c (Disconnect d)) -> (forall p, e = EPacket c (Publish p) -> ~ topic_name (pb_topic p)) ->
  (forall w, declares k w -> topic_name (wl_topic w) -> topic_filter f -> In (Closed c) (outputs_of c mid2) ->
     exists m, announces w m
       /\ (matches f (wl_topic w) -> granted f (pre ++ IStart (EFirst c (Some (Connect k)) u true) :: mid1 ++ IEnd c :: seg) -> routed_by c f mid2 = [m])
       /\ (~ matches f (wl_topic w) -> routed_by c f mid2 = [])) /\
  ((forall w, ~ declares k w) \/ ~ In (Closed c) (outputs_of c mid2) -> routed_by c f mid2 = []).
Proof. intros. eapply will_once; eauto. Qed.
Print Assumptions C92_will_once_partial.
(** The items determine the configurations. *)
Lemma mruns_det cfg x tr y : mruns cfg x tr y -> forall z, mruns cfg x tr z -> z = y.
Proof.
  induction 1 as [x|x m x1 i tr x2 Hs Hr IH]; intros z Hz; inversion Hz as [|? m' x1' ? ? ? Hs' Hr']; subst; [reflexivity|]. apply IH.
  assert (m' = m); [|congruence].
  pose proof (mstep_inv _ _ _ _ _ Hs) as A. pose proof (mstep_inv _ _ _ _ _ Hs') as B.
  destruct A as [(e & -> & E & _)|[(d & -> & E & _)|(d & k0 & o & k1 & -> & E & _)]];
    destruct B as [(e' & -> & E' & _)|[(d' & -> & E' & _)|(d' & k0' & o' & k1' & -> & E' & _)]]; congruence.
Qed.
(** A client whose identifier nobody else uses disconnects normally: no will is published. *)
Theorem C92_normal_disconnect_partial {st0} cfg c d pre mid post tr x f :
  mruns cfg (conf_on st0) tr x -> Forall texts (events_of c tr) -> lone c tr ->
  handled c (EPacket c (Disconnect d)) pre mid post tr -> opened c pre -> routed_by c f mid = [].
Proof.
  intros Hr Ht Hl Hh Ho. pose proof Hh as (Htr & _ & _).
  assert (Hs : exists y i, mruns cfg (conf_on st0) pre y /\ aget Nat.eqb c (w_conns (cn_world y)) = Some i /\ own_inv pre y).
  { pose proof Hr as Hr0. rewrite Htr in Hr0. apply start_at in Hr0. destruct Hr0 as (y & Hy & Hi & _ & _). cbn [event_conn] in Hi.
    apply (open_conns cfg c pre y Hy) in Ho; [|rewrite Htr in Ht; eapply event_texts; eauto|exact Hi]. destruct Ho as [i Ho].
    exists y, i. split; [exact Hy|]. split; [exact Ho|]. exact (own_runs _ _ _ _ Hy [] own_new). }
  destruct Hs as (y & i & Hy & Hc & Hown). pose proof (oi_conns _ _ Hown _ _ Hc) as Hmine.
  unfold routed_by. apply sent_by_none. eapply (disconnect_silent cfg c d pre mid post tr x i Hr Hh).
  - intros y' Hy' _. assert (y' = y) by (eapply mruns_det; eauto). subst y'. split; [exact Hc|].
    destruct Hmine as (id & Hm & _). pose proof (oi_heap _ _ Hown _ _ Hm) as Hlt.
    destruct (nth_error (w_heap (cn_world y)) i) eqn:E; [eauto|]. apply nth_error_None in E. lia.
  - intros c' s s' Hin. apply (@owner_only st0 cfg tr x c i); auto; [rewrite Htr; apply mine_app; exact Hmine|]. exists s, s'. exact Hin.
Qed.
Print Assumptions C92_normal_disconnect_partial.
(** Client "a" declares a will, subscribes and is cut off while client "b", subscribed to the topic of the will, publishes. *)
Definition ex_bye (c : nat) : event := EPacket c (Disconnect (Mk_disconnect_packet NormalDisconnection None)).
Definition ex_cut (e : event) : list move :=
  starts [ex_first 1 (ex_connect_will "a" true "gone" "W"); ex_first 2 (ex_connect "b" true)] ++ rounds 40 [1; 2]%nat ++
  starts [ex_sub 1 "x/+"; ex_sub 2 "gone"] ++ rounds 40 [1; 2]%nat ++
  starts [e; ex_pub 2 AtLeastOnce (Some 5) "x/y" "v"] ++ rounds 40 [2; 1]%nat ++
  starts [EOut 2 (str "gone")] ++ rounds 40 [2]%nat.
Definition ex_cut_trace := snd (mexec ex_open (ex_cut (EEnd 1)) conf_new).
Lemma ex_lone e tr : all_events tr = [ex_first 1 (ex_connect_will "a" true "gone" "W"); ex_first 2 (ex_connect "b" true); ex_sub 1 "x/+"; ex_sub 2 "gone";
    e; ex_pub 2 AtLeastOnce (Some 5) "x/y" "v"; EOut 2 (str "gone")] -> (forall k u a d, e <> EFirst d (Some (Connect k)) u a) -> lone 1 tr.
Proof.
  intros He Hn d id (k1 & u1 & a1 & H1 & E1) (k2 & u2 & a2 & H2 & E2). apply in_events in H1, H2. rewrite He in H1, H2.
  assert (K : id = str "a").
  { simpl in H1. repeat (destruct H1 as [H1|H1]; [try discriminate H1; try (exfalso; eapply Hn; exact H1)|]); try contradiction.
    injection H1 as <- <- <-. rewrite <- E1. reflexivity. }
  rewrite K in E2. simpl in H2. repeat (destruct H2 as [H2|H2]; [try discriminate H2; try (exfalso; eapply Hn; exact H2)|]); try contradiction; injection H2 as <- <- <- <-; [reflexivity|vm_compute in E2; discriminate E2].
Qed.
Lemma not_in_outputs o l : existsb (fun q => match o, q with Closed a, Closed b => Nat.eqb a b | Crashed a, Crashed b => Nat.eqb a b | Sent _ _, _ => true | _, _ => false end) l = false -> ~ In o l.
Proof.
  intros H Hi. assert (existsb (fun q => match o, q with Closed a, Closed b => Nat.eqb a b | Crashed a, Crashed b => Nat.eqb a b | Sent _ _, _ => true | _, _ => false end) l = true); [|congruence].
  apply existsb_exists. exists o. split; [exact Hi|]. destruct o; auto using Nat.eqb_refl.
Qed.
Example C92_ex : let tr := ex_cut_trace in exists seg,
  handled 1 (ex_first 1 (ex_connect_will "a" true "gone" "W")) (part1 1 0 tr) (part2 1 0 tr) (seg ++ IStart (EEnd 1) :: part2 1 2 tr ++ IEnd 1 :: part3 1 2 tr) tr
  /\ (forall d, Forall texts (events_of d tr)) /\ lone 1 tr /\ ~ opened 1 (part1 1 0 tr) /\ accepts ex_open (ex_connect_will "a" true "gone" "W")
  /\ unclosed 1 seg /\ ~ In (IEnd 1) (part2 1 2 tr) /\ In (Closed 1) (outputs_of 1 (part2 1 2 tr))
  /\ declares (ex_connect_will "a" true "gone" "W") (Mk_will (str "gone") (str "W") AtMostOnce false)
  /\ granted (str "gone") (part1 1 2 tr)
  /\ (exists m, announces (Mk_will (str "gone") (str "W") AtMostOnce false) m /\ routed_by 1 (str "gone") (part2 1 2 tr) = [m])
  /\ length (deliveries 2 (str "gone") (outputs_of 2 tr)) = 1%nat.
Proof.
  intros tr. exists (fst (upto (is_start 1) 1 (part3 1 0 tr))).
  assert (H : handled 1 (ex_first 1 (ex_connect_will "a" true "gone" "W")) (part1 1 0 tr) (part2 1 0 tr) (part3 1 0 tr) tr) by (apply handled_parts; vm_compute; reflexivity).
  assert (H2 : handled 1 (EEnd 1) (part1 1 2 tr) (part2 1 2 tr) (part3 1 2 tr) tr) by (apply handled_parts; vm_compute; reflexivity).
  split; [replace (_ ++ _) with (part3 1 0 tr); [exact H|vm_compute; reflexivity]|].
  split; [apply texts_all; vm_compute; reflexivity|]. split; [apply (ex_lone (EEnd 1)); [vm_compute; reflexivity|discriminate]|].
  split; [vm_compute; discriminate|]. split; [left; reflexivity|].
  split; [split; apply not_in_outputs; vm_compute; reflexivity|]. split; [apply H2|].
  split; [vm_compute; tauto|]. split; [repeat split|].
  split; [eapply (ex_granted 2 1 _ _ (part1 1 2 tr)); [vm_compute; reflexivity|vm_compute; reflexivity|left; reflexivity|vm_compute; reflexivity|vm_compute; reflexivity]|].
  split; [|vm_compute; reflexivity]. eexists. split; [|vm_compute; reflexivity]. repeat split.
Qed.
(** The same client disconnects normally. *)
Definition ex_bye_trace := snd (mexec ex_open (ex_cut (ex_bye 1)) conf_new).
Example C92_ex2 : let tr := ex_bye_trace in
  handled 1 (ex_bye 1) (part1 1 2 tr) (part2 1 2 tr) (part3 1 2 tr) tr /\ lone 1 tr /\ opened 1 (part1 1 2 tr)
  /\ In (Closed 1) (outputs_of 1 (part2 1 2 tr)) /\ deliveries 2 (str "gone") (outputs_of 2 tr) = [].
Proof.
  split; [apply handled_parts; vm_compute; reflexivity|]. split; [apply (ex_lone (ex_bye 1)); [vm_compute; reflexivity|discriminate]|].
  split; [vm_compute; reflexivity|]. split; [vm_compute; tauto|vm_compute; reflexivity].
Qed.
(** If the identifier is used again meanwhile it is false. Client "a" disconnects normally from connection 1, for which it never
    declared a will. While this is handled it comes back on connection 2 with a will. The handler of connection 1
    then publishes this will, although connection 2 stays open. *)
Definition ex_overtaken : list move :=
  starts [ex_first 1 (ex_connect "a" false); ex_first 3 (ex_connect "s" true)] ++ rounds 40 [1; 3]%nat ++
  starts [ex_sub 3 "gone"] ++ rounds 40 [3]%nat ++
  starts [ex_bye 1] ++ rounds 1 [1]%nat ++
  starts [ex_first 2 (ex_connect_will "a" false "gone" "W")] ++ rounds 40 [2]%nat ++
  rounds 40 [1]%nat ++ starts [EOut 3 (str "gone")] ++ rounds 40 [3]%nat.
Theorem C92_will_of_the_living_refuted : exists tr x k1 k2 u1 u2 w m,
  mruns ex_open conf_new tr x
  /\ all_events tr = [EFirst 1 (Some (Connect k1)) u1 true; ex_first 3 (ex_connect "s" true); ex_sub 3 "gone"; ex_bye 1;
       EFirst 2 (Some (Connect k2)) u2 true; EOut 3 (str "gone")]
  (* connection 1 declares no will and disconnects; connection 2 declares one and stays open *)
  /\ (forall w, ~ declares k1 w) /\ declares k2 w /\ opened 2 tr /\ unclosed 2 tr
  /\ announces w m /\ routed_by 1 (str "gone") tr = [m] /\ length (deliveries 3 (str "gone") (outputs_of 3 tr)) = 1%nat.
Proof.
  set (tr := snd (mexec ex_open ex_overtaken conf_new)).
  exists tr, (fst (mexec ex_open ex_overtaken conf_new)), (ex_connect "a" false), (ex_connect_will "a" false "gone" "W"), (str "uuid"), (str "uuid"),
    (Mk_will (str "gone") (str "W") AtMostOnce false), (Mk_message None (str "gone") false AtMostOnce false (Some (str "W"))).
  split; [apply mexec_runs|]. split; [vm_compute; reflexivity|]. split; [intros w (H & _); discriminate H|]. split; [repeat split|].
  split; [vm_compute; reflexivity|]. split; [split; apply not_in_outputs; vm_compute; reflexivity|]. split; [repeat split|].
  split; vm_compute; reflexivity.
Qed.
Print Assumptions C92_will_of_the_living_refuted.

(** ** C93: the order of the messages of different publishers *)
(** If the handling of one PUBLISH has ended before the other arrives, whoever sent them, both enter every queue in this order. *)
Theorem C93_later_is_later_partial {st0} cfg c1 c2 p1 p2 pre mid1 between mid2 post tr x f :
  mruns cfg (conf_on st0) tr x -> (forall d, Forall texts (events_of d tr)) ->
  handled c1 (EPacket c1 (Publish p1)) pre mid1 (between ++ IStart (EPacket c2 (Publish p2)) :: mid2 ++ IEnd c2 :: post) tr -> ~ In (IEnd c2) mid2 ->
  opened c1 pre -> opened c2 (pre ++ IStart (EPacket c1 (Publish p1)) :: mid1 ++ IEnd c1 :: between) ->
  valid_publish p1 -> valid_publish p2 -> topic_filter f ->
  matches f (pb_topic p1) -> matches f (pb_topic p2) -> granted f pre ->
  exists m1 m2 a b d, carries p1 m1 /\ carries p2 m2 /\ routed f tr = a ++ m1 :: b ++ m2 :: d.
Proof.
  intros Hr Ht Hh He2 Ho1 Ho2 Hv1 Hv2 Hf M1 M2 G.
  destruct (C88_once_to_every_match _ _ _ _ _ _ _ _ _ Hr Ht Hh Ho1 Hv1 Hf) as (m1 & C1 & R1 & _). specialize (R1 M1 G).
  assert (Hh2 : handled c2 (EPacket c2 (Publish p2)) (pre ++ IStart (EPacket c1 (Publish p1)) :: mid1 ++ IEnd c1 :: between) mid2 post tr).
  { destruct Hh as (-> & E & _). split; [|split; [apply Nat.eqb_refl|exact He2]]. rewrite <- app_assoc. simpl. rewrite <- app_assoc. reflexivity. }
  destruct (C88_once_to_every_match _ _ _ _ _ _ _ _ _ Hr Ht Hh2 Ho2 Hv2 Hf) as (m2 & C2 & R2 & _).
  assert (G2 : granted f (pre ++ IStart (EPacket c1 (Publish p1)) :: mid1 ++ IEnd c1 :: between)).
  { destruct G as (d & q & u & v & w & a & -> & H1 & H2 & H3). exists d, q, u, v, (w ++ IStart (EPacket c1 (Publish p1)) :: mid1 ++ IEnd c1 :: between), a.
    repeat split; auto. rewrite <- app_assoc. simpl. rewrite <- app_assoc. reflexivity. }
  specialize (R2 M2 G2).
  assert (I1 : In m1 (routed f mid1)) by (apply (routed_by_in c1); rewrite R1; left; reflexivity).
  assert (I2 : In m2 (routed f mid2)) by (apply (routed_by_in c2); rewrite R2; left; reflexivity).
  apply in_split in I1. destruct I1 as (a1 & b1 & E1). apply in_split in I2. destruct I2 as (a2 & b2 & E2).
  exists m1, m2, (routed f pre ++ a1), (b1 ++ routed f between ++ a2), (b2 ++ routed f post).
  split; [exact C1|]. split; [exact C2|]. destruct Hh as (-> & _ & _).
  rewrite routed_app. change (routed f (IStart ?e :: ?l)) with (routed f l). rewrite routed_app. change (routed f (IEnd ?e :: ?l)) with (routed f l).
  rewrite routed_app. change (routed f (IStart ?e :: ?l)) with (routed f l). rewrite routed_app. change (routed f (IEnd ?e :: ?l)) with (routed f l).
  rewrite E1, E2. rewrite <- !app_assoc. cbn [app]. rewrite ?app_comm_cons, <- ?app_assoc. cbn [app]. reflexivity.
Qed.
Print Assumptions C93_later_is_later_partial.
(** Client 1 publishes, then client 2. *)
Definition ex_later : list move :=
  starts [ex_first 1 (ex_connect "a" true); ex_first 2 (ex_connect "b" true)] ++ rounds 40 [1; 2]%nat ++
  starts [ex_sub 1 "x/+"; ex_sub 2 "x/y"] ++ rounds 40 [1; 2]%nat ++
  starts [EPacket 1 (Publish ex_p1)] ++ rounds 40 [1]%nat ++ starts [EPacket 2 (Publish ex_p2)] ++ rounds 40 [2]%nat.
Example C93_ex : let tr := snd (mexec ex_open ex_later conf_new) in exists between,
  handled 1 (EPacket 1 (Publish ex_p1)) (part1 1 2 tr) (part2 1 2 tr)
    (between ++ IStart (EPacket 2 (Publish ex_p2)) :: part2 2 2 tr ++ IEnd 2 :: part3 2 2 tr) tr
  /\ ~ In (IEnd 2) (part2 2 2 tr) /\ opened 1 (part1 1 2 tr) /\ opened 2 (part1 1 2 tr ++ IStart (EPacket 1 (Publish ex_p1)) :: part2 1 2 tr ++ IEnd 1 :: between)
  /\ granted (str "x/y") (part1 1 2 tr) /\ routed (str "x/y") tr = [message_of ex_p1; message_of ex_p2].
Proof.
  intros tr. exists (fst (upto (is_start 2) 0 (part3 1 2 tr))).
  assert (H : handled 1 (EPacket 1 (Publish ex_p1)) (part1 1 2 tr) (part2 1 2 tr) (part3 1 2 tr) tr) by (apply handled_parts; vm_compute; reflexivity).
  assert (H2 : handled 2 (EPacket 2 (Publish ex_p2)) (part1 2 2 tr) (part2 2 2 tr) (part3 2 2 tr) tr) by (apply handled_parts; vm_compute; reflexivity).
  split; [replace (_ ++ _) with (part3 1 2 tr); [exact H|vm_compute; reflexivity]|]. split; [apply H2|].
  split; [vm_compute; reflexivity|]. split; [vm_compute; reflexivity|].
  split; [|vm_compute; reflexivity].
  eapply (ex_granted 2 1 _ _ (part1 1 2 tr)); [vm_compute; reflexivity|vm_compute; reflexivity|left; reflexivity|vm_compute; reflexivity|vm_compute; reflexivity].
Qed.
(** Messages that two clients publish to one topic at the same time can reach two subscribers in opposite orders. *)
Definition ex_crossed : list move :=
  starts [ex_first 1 (ex_connect "a" true); ex_first 2 (ex_connect "b" true); ex_first 3 (ex_connect "c" true); ex_first 4 (ex_connect "d" true)] ++ rounds 60 [1; 2; 3; 4]%nat ++
  starts [ex_sub 3 "x/+"; ex_sub 4 "x/y"] ++ rounds 60 [3]%nat ++ rounds 60 [4]%nat ++
  starts [EPacket 1 (Publish ex_p1); EPacket 2 (Publish ex_p2)] ++ rounds 2 [1]%nat ++ rounds 60 [2]%nat ++ rounds 60 [1]%nat ++
  concat (repeat (starts [EOut 3 (str "x/+"); EOut 4 (str "x/y")] ++ rounds 40 [3; 4]%nat) 2).
Theorem C93_same_order_refuted : exists tr x c1 c2 c3 c4 p1 p2 m1 m2 f g,
  mruns ex_open conf_new tr x /\ c1 <> c2 /\ c3 <> c4 /\ pb_topic p1 = pb_topic p2 /\ carries p1 m1 /\ carries p2 m2 /\ m1 <> m2
  /\ (exists pre post, tr = pre ++ IStart (EPacket c1 (Publish p1)) :: post /\ granted f pre /\ granted g pre)
  /\ routed f tr = [m1; m2] /\ routed g tr = [m2; m1]
  (* and so they are delivered *)
  /\ Forall2 (sent_as f) (deliveries c3 f (outputs_of c3 tr)) [m1; m2]
  /\ Forall2 (sent_as g) (deliveries c4 g (outputs_of c4 tr)) [m2; m1].
Proof.
  set (tr := snd (mexec ex_open ex_crossed conf_new)).
  exists tr, (fst (mexec ex_open ex_crossed conf_new)), 1%nat, 2%nat, 3%nat, 4%nat, ex_p1, ex_p2, (message_of ex_p1), (message_of ex_p2), (str "x/+"), (str "x/y").
  split; [apply mexec_runs|]. split; [discriminate|]. split; [discriminate|]. split; [reflexivity|]. split; [repeat split|]. split; [repeat split|]. split; [discriminate|].
  split; [|split; [vm_compute; reflexivity|split; [vm_compute; reflexivity|]]].
  - exists (part1 1 1 tr), (part2 1 1 tr ++ IEnd 1 :: part3 1 1 tr). split; [vm_compute; reflexivity|]. split.
    + eapply (ex_granted 3 1 _ _ (part1 1 1 tr)); [vm_compute; reflexivity|vm_compute; reflexivity|left; reflexivity|vm_compute; reflexivity|vm_compute; reflexivity].
    + eapply (ex_granted 4 1 _ _ (part1 1 1 tr)); [vm_compute; reflexivity|vm_compute; reflexivity|left; reflexivity|vm_compute; reflexivity|vm_compute; reflexivity].
  - split.
    + set (l := deliveries 3 _ _). vm_compute in l. unfold l. repeat constructor.
    + set (l := deliveries 4 _ _). vm_compute in l. unfold l. repeat constructor.
Qed.
Print Assumptions C93_same_order_refuted.
