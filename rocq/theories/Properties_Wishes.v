(** Property C116: what clients ask for in properties, options and reasons.
    Every theorem is followed by a concrete case meeting its hypotheses. *)
From Coq Require Import String.
From Verif Require Import Base Utf8 Codec SpecCodec Tac CodecFacts Str Maps Topic SpecTopic Property PacketProps Packets
  TopicTree Storage Broker Auth Session Server SpecServer Conc SpecConc ConcFacts SpecLives SpecWishes WishesFacts Examples Properties_Conc.
Local Open Scope list_scope.

(** Whatever else clients had asked for in properties, options and reasons, the broker could have done the same: for every
    schedule and every way to change these in what the clients send, there is a schedule with the changed packets in which
    the same connections take the same turns, the same packets are written and the same store is left. *)
Theorem C116_ignored cfg st tr x es' : mruns cfg (conf_on st) tr x -> Forall2 same_event (starts_of tr) es' ->
  exists tr' x', mruns cfg (conf_on st) tr' x' /\ starts_of tr' = es' /\ map see tr' = map see tr /\ w_store (cn_world x') = w_store (cn_world x).
Proof.
  intros H He. destruct (runs_sim _ _ _ _ H _ _ (csim_refl st) He) as (tr' & x' & H1 & [[_ _ Hb _] _ _ _] & H3 & H4).
  exists tr', x'. repeat split; auto. unfold w_store. congruence.
Qed.
Print Assumptions C116_ignored.
(** The same over any number of lives of the broker. *)
Lemma same_texts e e' : same_event e e' -> texts e -> texts e'.
Proof.
  destruct 1 as [e|c k k' u a H|c k k' H]; auto. destruct H as [k|p p' (_ & _ & _ & E & _)| | | | |s s' _ E| | |]; simpl; auto.
  - rewrite E. auto.
  - assert (H : forall l : list sub_filter, Forall (fun fo => utf8 (fst fo)) l <-> Forall utf8 (map fst l)).
    { intros l. rewrite Forall_map. reflexivity. }
    rewrite !H, E. auto.
Qed.
Lemma texts_starts tr : (forall c, Forall texts (events_of c tr)) <-> Forall texts (starts_of tr).
Proof.
  split.
  - intros H. apply Forall_forall. intros e He. destruct e as [c f u a|c k|c f|c|c|]; try exact I.
    specialize (H c). rewrite Forall_forall in H. apply H. unfold starts_of in He. apply in_flat_map in He. destruct He as (i & Hi & He).
    apply in_flat_map. exists i. split; [exact Hi|]. destruct i; try contradiction. destruct He as [->|[]]. simpl. rewrite Nat.eqb_refl. left. reflexivity.
  - intros H c. rewrite Forall_forall in *. intros e He. apply H. apply in_flat_map in He. destruct He as (i & Hi & He). apply in_flat_map. exists i. split; [exact Hi|].
    destruct i; try contradiction. destruct (event_of c e0); [exact He|contradiction].
Qed.
Theorem C116_ignored_over_lives cfg trs st ess : lives cfg trs st -> Forall2 (fun tr es => Forall2 same_event (starts_of tr) es) trs ess ->
  exists trs', lives cfg trs' st /\ map starts_of trs' = ess /\ map (map see) trs' = map (map see) trs.
Proof.
  intros H. revert ess. induction H as [|trs st tr x Hl IH Hr Ht]; intros ess He.
  - inversion He; subst. exists []. repeat split. constructor.
  - apply Forall2_app_inv_l in He. destruct He as (e1 & e2 & H1 & H2 & ->). inversion H2 as [|? es ? ? Hes Hnil]; subst. inversion Hnil; subst.
    destruct (IH _ H1) as (trs' & Hl' & E1 & E2). destruct (C116_ignored _ _ _ _ _ Hr Hes) as (tr' & x' & Hr' & E3 & E4 & E5).
    exists (trs' ++ [tr']). rewrite <- E5, !map_app. simpl. split; [|split; congruence]. eapply lv_more; eauto.
    apply texts_starts. rewrite E3. apply texts_starts in Ht. clear - Hes Ht. induction Hes; inv Ht; constructor; eauto using same_texts.
Qed.
Print Assumptions C116_ignored_over_lives.
(** And it passes nothing of the kind on: what it writes, in every schedule, has no properties but the identifier it gives to a
    client that came without one, reports no failure in an acknowledgement, has no retain flag; it never writes a DISCONNECT. *)
Theorem C116_nothing_passed_on cfg st tr x c d k : mruns cfg (conf_on st) tr x -> In (IStep c (OOut (Sent d k))) tr -> plain k.
Proof. intros H. apply (runs_says _ _ _ _ H). discriminate. Qed.
Print Assumptions C116_nothing_passed_on.

(** ** So nothing that is asked for there is granted, but by chance *)
Definition asking (p : connect_props) (k : connect_packet) : connect_packet :=
  Mk_connect_packet (c_protocol_version k) (c_flags k) (c_keepalive k) (Some p) (c_payload k).
Definition with_options (c : nat) (f : string) (o : sub_options) : event := EPacket c (Subscribe (Mk_subscribe_packet 7 None [(str f, o)])).
Definition alone (es : list event) : list move := concat (map (fun e => MStart e :: rounds 40 [event_conn e]) es).
Definition ex_of (es : list event) : list item := snd (mexec ex_open (alone es) conf_new).
Definition ex_end (es : list event) : conf := fst (mexec ex_open (alone es) conf_new).
Lemma ex_runs es : mruns ex_open conf_new (ex_of es) (ex_end es).
Proof. apply mexec_runs. Qed.
(** No Local: a client that asks not to be sent its own messages is sent them. *)
Theorem C116_no_local_refuted : exists tr x o p q, mruns ex_open conf_new tr x /\ so_no_local o = true
  /\ starts_of tr = [ex_first 1 (ex_connect "a" true); with_options 1 "x" o; EPacket 1 (Publish p); EOut 1 (str "x")]
  /\ In (Sent 1 (Publish q)) (outputs_of 1 tr) /\ pb_payload q = pb_payload p.
Proof.
  pose (o := Mk_sub_options AtMostOnce true false SendRetained). pose (p := Examples.ex_publish AtMostOnce None false "x" "v").
  pose (es := [ex_first 1 (ex_connect "a" true); with_options 1 "x" o; EPacket 1 (Publish p); EOut 1 (str "x")]).
  exists (ex_of es), (ex_end es), o, p, (Examples.ex_publish AtMostOnce None false "x" "v"). split; [apply ex_runs|]. split; [reflexivity|].
  split; [vm_compute; reflexivity|]. split; [|reflexivity]. vm_compute. auto.
Qed.
Print Assumptions C116_no_local_refuted.
(** Retain Handling: a client that asks not to be sent retained messages is sent them. *)
Theorem C116_retain_handling_refuted : exists tr x o p q, mruns ex_open conf_new tr x /\ so_retain_handling o = DoNotSendRetained
  /\ starts_of tr = [ex_first 2 (ex_connect "b" true); EPacket 2 (Publish p); ex_first 1 (ex_connect "a" true); with_options 1 "x" o; EOut 1 (str "x")]
  /\ pb_retain p = true /\ In (Sent 1 (Publish q)) (outputs_of 1 tr) /\ pb_payload q = pb_payload p.
Proof.
  pose (o := Mk_sub_options AtMostOnce false false DoNotSendRetained). pose (p := Examples.ex_publish AtMostOnce None true "x" "v").
  pose (es := [ex_first 2 (ex_connect "b" true); EPacket 2 (Publish p); ex_first 1 (ex_connect "a" true); with_options 1 "x" o; EOut 1 (str "x")]).
  exists (ex_of es), (ex_end es), o, p, (Examples.ex_publish AtMostOnce None false "x" "v"). split; [apply ex_runs|]. split; [reflexivity|].
  split; [vm_compute; reflexivity|]. split; [reflexivity|]. split; [|reflexivity]. vm_compute. auto.
Qed.
Print Assumptions C116_retain_handling_refuted.
(** Session Expiry Interval: a session that is to end with the connection, as the client says twice, is found again. *)
Theorem C116_session_expiry_refuted : exists tr x k k' d a, mruns ex_open conf_new tr x
  /\ option_map cp_session_expiry_interval (c_properties k) = Some (Some 0) /\ option_map dp_session_expiry_interval (d_properties d) = Some (Some 0)
  /\ starts_of tr = [ex_first 1 k; EPacket 1 (Disconnect d); ex_first 2 k'] /\ c_payload k' = c_payload k
  /\ outputs_of 2 tr = [Sent 2 (ConnAck a)] /\ ca_session_present a = true.
Proof.
  pose (k := asking (Mk_connect_props (Some 0) None None None None None None None None) (ex_connect "a" true)).
  pose (d := Mk_disconnect_packet NormalDisconnection (Some (Mk_disconnect_props (Some 0) None None None))).
  pose (es := [ex_first 1 k; EPacket 1 (Disconnect d); ex_first 2 (ex_connect "a" false)]).
  exists (ex_of es), (ex_end es), k, (ex_connect "a" false), d. eexists. split; [apply ex_runs|]. split; [reflexivity|]. split; [reflexivity|].
  split; [vm_compute; reflexivity|]. split; [reflexivity|]. split; [vm_compute; reflexivity|]. reflexivity.
Qed.
Print Assumptions C116_session_expiry_refuted.
(** Receive Maximum: a client that can take one unacknowledged message is sent two. *)
Theorem C116_receive_maximum_refuted : exists tr x k q q', mruns ex_open conf_new tr x
  /\ option_map cp_receive_maximum (c_properties k) = Some (Some 1) /\ (exists a b, events_of 1 tr = [ex_first 1 k; ex_sub 1 "x"; a; b] /\ a = EOut 1 (str "x") /\ b = a)
  /\ (exists o o', outputs_of 1 tr = [o; o'; Sent 1 (Publish q); Sent 1 (Publish q')]) /\ pb_qos q = AtLeastOnce /\ pb_qos q' = AtLeastOnce.
Proof.
  pose (k := asking (Mk_connect_props None (Some 1) None None None None None None None) (ex_connect "a" true)).
  pose (es := [ex_first 1 k; ex_sub 1 "x"; ex_first 2 (ex_connect "b" true); ex_pub 2 AtLeastOnce (Some 5) "x" "v"; ex_pub 2 AtLeastOnce (Some 6) "x" "w"; EOut 1 (str "x"); EOut 1 (str "x")]).
  exists (ex_of es), (ex_end es), k. do 2 eexists. split; [apply ex_runs|]. split; [reflexivity|]. split; [do 2 eexists; split; [vm_compute; reflexivity|auto]|].
  split; [do 2 eexists; vm_compute; reflexivity|]. split; reflexivity.
Qed.
Print Assumptions C116_receive_maximum_refuted.
(** "Disconnect with Will Message": the client asks for its will to be published; nobody is sent it. *)
Theorem C116_disconnect_with_will_refuted : exists tr x k d p, mruns ex_open conf_new tr x /\ declares k p
  /\ wl_topic p = str "gone" /\ d_reason d = DisconnectWithWillMessage
  /\ starts_of tr = [ex_first 2 (ex_connect "b" true); ex_sub 2 "gone"; ex_first 1 k; EPacket 1 (Disconnect d); EOut 2 (str "gone")]
  /\ (forall q, ~ In (Sent 2 (Publish q)) (outputs_of 2 tr)) /\ idle 2 x.
Proof.
  pose (k := ex_connect_will "a" true "gone" "v"). pose (d := Mk_disconnect_packet DisconnectWithWillMessage None).
  pose (es := [ex_first 2 (ex_connect "b" true); ex_sub 2 "gone"; ex_first 1 k; EPacket 1 (Disconnect d); EOut 2 (str "gone")]).
  exists (ex_of es), (ex_end es), k, d, (Mk_will (str "gone") (str "v") AtMostOnce false). split; [apply ex_runs|]. split; [repeat split|]. split; [reflexivity|]. split; [reflexivity|].
  split; [vm_compute; reflexivity|]. split; [|vm_compute; reflexivity]. intros q. vm_compute. intros [H|[H|[]]]; discriminate.
Qed.
Print Assumptions C116_disconnect_with_will_refuted.
(** A schedule of several connections, and the same with everything asked for that can be. *)
Definition ex_wish (e : event) : event :=
  match e with
  | EFirst c (Some (Connect k)) u a => EFirst c (Some (Connect (asking (Mk_connect_props (Some 9) (Some 1) (Some 20) (Some 5) (Some 1) (Some 0) None None None) k))) u a
  | EPacket c (Publish p) => EPacket c (Publish (Mk_publish_packet (pb_dup p) (pb_qos p) (pb_retain p) (pb_topic p) (pb_packet_id p) (Some publish_props_default) (pb_payload p)))
  | EPacket c (Subscribe p) => EPacket c (Subscribe (Mk_subscribe_packet (sb_packet_id p) None (map (fun fo => (fst fo, Mk_sub_options ExactlyOnce true true DoNotSendRetained)) (sb_payload p))))
  | e => e
  end.
Lemma ex_wish_same e : same_event e (ex_wish e).
Proof.
  destruct e as [c [[]|] u a|c k|c f|c|c|]; try apply se_same; simpl.
  - apply se_first. repeat split.
  - destruct k; try apply se_same; apply se_packet; constructor; simpl; try reflexivity; [repeat split|]. rewrite map_map. simpl. reflexivity.
Qed.
Definition asks (e : event) : bool := match e with EFirst _ (Some (Connect k)) _ _ => is_some (c_properties k) | _ => false end.
Definition passed_on (s : seen) : bool := match s with SStep _ (Some (Sent _ (Publish _))) => true | _ => false end.
Example C116_ex : mruns ex_open conf_new ex_trace (fst (mexec ex_open ex_moves conf_new))
  /\ Forall2 same_event (starts_of ex_trace) (map ex_wish (starts_of ex_trace)) /\ length (filter passed_on (map see ex_trace)) = 3%nat
  /\ length (starts_of ex_trace) = 10%nat /\ existsb asks (starts_of ex_trace) = false /\ existsb asks (map ex_wish (starts_of ex_trace)) = true
  /\ exists q, In (IStep 1 (OOut (Sent 1 (Publish q)))) ex_trace.
Proof.
  split; [apply mexec_runs|]. split; [induction (starts_of ex_trace); constructor; auto using ex_wish_same|].
  split; [vm_compute; reflexivity|]. split; [vm_compute; reflexivity|]. split; [vm_compute; reflexivity|]. split; [vm_compute; reflexivity|].
  exists (Examples.ex_publish AtLeastOnce (Some 5) false "x/+" "v").
  assert (H : nth_error (outputs_of 1 ex_trace) 3 = Some (Sent 1 (Publish (Examples.ex_publish AtLeastOnce (Some 5) false "x/+" "v")))) by (vm_compute; reflexivity).
  apply nth_error_In in H. revert H. generalize ex_trace. intros tr H. apply in_flat_map in H. destruct H as (i & Hi & H). destruct i as [|d o|]; try contradiction.
  destruct o; try contradiction. destruct (Nat.eqb d 1) eqn:E; [|contradiction]. apply Nat.eqb_eq in E. subst d. destruct H as [->|[]]. exact Hi.
Qed.
