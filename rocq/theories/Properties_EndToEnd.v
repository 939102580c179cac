(** Properties C71 and C72: the client library together with the broker, over the wire. *)
From Coq Require Import String.
From Verif Require Import Base Utf8 Codec Tac SpecCodec CodecFacts Property SpecProperty PacketProps Packets SpecPackets
  PacketsFacts PacketsRoundtrip Frame Str Maps Topic SpecTopic TopicFacts TopicTree TreeFacts Storage Broker SpecBroker Auth Session Server
  SpecServer BrokerFacts SessionFacts ServerFacts HandlerFacts HistoryFacts ProvenanceFacts WorldFacts DeliveryFacts StoreFacts Client SpecClient ClientFacts Examples
  Properties_Wire Properties_Routing Properties_Delivery Properties_Session Properties_Server Properties_Client.

(** * C71: the result of connect() *)

Lemma connack_sent v sp r q : match q with Some a => exists u, a = assigned_props u /\ wf_str u | None => True end ->
  exists bs, packet_enc (ConnAck (Mk_connack_packet v sp r q)) = Ok bs /\ blen bs <= max_frame /\
    wf_packet (ConnAck (Mk_connack_packet v sp r q)).
Proof.
  intros Hq.
  assert (Hwf : wf_packet (ConnAck (Mk_connack_packet v sp r q))).
  { destruct q as [a|]; [|exact I]. destruct Hq as (u & -> & Hu). split; [|discriminate].
    constructor; [exact Hu|constructor]. }
  assert (He : exists bs, packet_enc (ConnAck (Mk_connack_packet v sp r q)) = Ok bs).
  { cbn [packet_enc]. unfold connack_enc. cbn [ca_protocol_version]. destruct (supports_properties v) eqn:Ev; [|eexists; reflexivity].
    destruct q as [a|]; [destruct Hq as (u & -> & Hu & Hu2)|]; [|eexists; reflexivity].
    cbn [ca_properties osize]. change (props_size (connack_props_size_list (assigned_props u))) with (Ok (1 + (blen u + 2) + 0)).
    cbn [bind]. unfold vsize, vbi_size. replace (as_u32 (1 + (blen u + 2) + 0)) with (3 + blen u) by (unfold as_u32, two32; lia).
    destruct (3 + blen u <=? 127) eqn:E1; [eexists; reflexivity|]. destruct (3 + blen u <=? 16383) eqn:E2; [eexists; reflexivity|].
    destruct (3 + blen u <=? 2097151) eqn:E3; [eexists; reflexivity|]. lia. }
  destruct He as [bs Hbs]. exists bs. split; [exact Hbs|]. split; [|exact Hwf].
  cbn [packet_enc] in Hbs. destruct (connack_framed _ _ Hbs) as (psz & -> & ->). apply frame_small.
  cbn [ca_session_present ca_protocol_version ca_reason_code ca_properties].
  assert (Hl : blen (oenc connack_props_list q) <= 65538).
  { destruct q as [a|]; [destruct Hq as (u & -> & Hu & Hu2)|vm_compute; discriminate].
    change (oenc connack_props_list (Some (assigned_props u))) with ((18 :: str_enc u) ++ []). rewrite app_nil_r, blen_cons, blen_str_enc. unfold str_size. lia. }
  assert (Hv : blen (venc (blen (oenc connack_props_list q))) <= 4).
  { unfold venc. replace (as_u32 _) with (blen (oenc connack_props_list q)) by (unfold as_u32, two32; lia).
    apply vbi_enc_len. unfold vbi_max. lia. }
  rewrite blen_app. change (blen (connack_flags_enc sp)) with 1.
  destruct (supports_properties v); rewrite ?blen_app.
  - change (blen (reason_enc r)) with 1. unfold vbi_max. lia.
  - rewrite blen_cons, blen_nil. unfold vbi_max. lia.
Qed.

(** The configuration lets a client with these options in. *)
Definition admits (cfg : config) (o : connect_options) : Prop :=
  sv_require_auth cfg = false \/
  exists u p v, op_username o = Some u /\ op_password o = Some p /\ sv_validator cfg = Some v /\ v u p = true.
(** What the client sends is read back by the broker, whatever follows it, and so is what
    the broker answers by the client. *)
Definition carried (v : version) (k k' : packet) : Prop :=
  exists bs, packet_enc k = Ok bs /\ forall p rest, parse_with_version p v (bs ++ rest) = Ok (k', rest).

Lemma connack_carried v v' sp r q : match q with Some a => exists u, a = assigned_props u /\ wf_str u | None => True end ->
  supports_properties v' = supports_properties v ->
  carried v' (ConnAck (Mk_connack_packet v sp r q)) (canon (ConnAck (Mk_connack_packet v sp r q))).
Proof.
  intros Hq Hv. destruct (connack_sent v sp r q Hq) as (bs & Hbs & Hl & Hwf). exists bs. split; [exact Hbs|].
  intros p rest. apply (C08_packets_round_trip_partial p v' _ bs rest Hbs Hl Hwf); [exact I|exact Hv].
Qed.

(** connect() succeeds exactly when the broker lets the client in, and then the broker
    serves it; otherwise it reports the reason and nothing has changed. The identifier
    returned is the one the broker uses, but for an MQTT 3 client without identifier. *)
Theorem C71_connect_result_partial cfg w c o u :
  reachable cfg w -> not_served w c -> options_fit o -> wf_str u ->
  exists k, (forall v, carried v (Connect (build_connect o)) (Connect k)) /\
  forall w' outs, step cfg w (EFirst c (Some (Connect k)) u true) = (w', outs) ->
  exists x y more, outs = Sent c (ConnAck x) :: more /\ carried (op_version o) (ConnAck x) (ConnAck y) /\
    (admits cfg o ->
       exists id i s, perform_connect o (Some (RPacket (ConnAck y))) = COk id /\ serves w' c i s /\
         (id = se_client_id s \/ (supports_properties (op_version o) = false /\ id = []))) /\
    (~ admits cfg o ->
       perform_connect o (Some (RPacket (ConnAck y))) = CErr (CConnectionRefused BadUserNameOrPassword) /\ w' = w).
Proof.
  intros Hr Hn Ho Hu. destruct (connect_sent o Ho) as (bs & Hbs & Hl & Hwf).
  set (k := canon_connect (build_connect o)). exists k. split.
  { intros v. exists bs. split; [exact Hbs|]. intros p rest.
    apply (C08_packets_round_trip_partial p v _ bs rest Hbs Hl Hwf); exact I. }
  assert (Hv : c_protocol_version k = op_version o) by reflexivity.
  assert (Hun : cl_user_name (c_payload k) = op_username o) by (cbn; destruct (op_username o); reflexivity).
  assert (Hpw : cl_password (c_payload k) = op_password o) by (cbn; destruct (op_password o); reflexivity).
  assert (Hid : presented k = match op_client_id o with Some i => i | None => [] end) by reflexivity.
  assert (Hacc : accepts cfg k <-> admits cfg o) by (unfold accepts, admits; rewrite Hun, Hpw; tauto).
  intros w' outs H. destruct (authenticated cfg k) eqn:Ea.
  - destruct (connect_accept _ _ _ _ _ _ _ (reachable_wf cfg w Hr) Hn Ea H) as (i & subs & wl & infl & s & s1 & Hac).
    pose proof (ac_out _ _ _ _ _ _ _ _ _ _ _ _ _ Hac) as Hout.
    destruct (entered_connect _ _ _ _ _ _ _ (ac_entered _ _ _ _ _ _ _ _ _ _ _ _ _ Hac)) as [Ec _].
    destruct (accepted_id _ _ _ _ _ _ _ _ _ _ _ _ _ Hac) as [Hi _].
    assert (Hs : exists s', serves w' c i s' /\ se_client_id s' = identifier k u).
    { eexists. split; [split; [rewrite (ac_conns _ _ _ _ _ _ _ _ _ _ _ _ _ Hac); apply aget_put_same, nateqb_spec
                              |exact (ac_session _ _ _ _ _ _ _ _ _ _ _ _ _ Hac)]|].
      rewrite <- final_id_eq, <- Hi. destruct wl; reflexivity. }
    destruct Hs as (s' & Hs' & Hsi).
    set (q := match presented k with [] => if supports_properties (op_version o) then Some (assigned_props u) else None | _ => None end).
    assert (Hb : fst (begin u (resumes k w) s) = ConnAck (Mk_connack_packet (op_version o) (resumes k w) Success q)).
    { unfold begin, q, presented. rewrite Ec. rewrite Hv. destruct (cl_client_id (c_payload k)); reflexivity. }
    rewrite Hb in Hout.
    assert (Hc : carried (op_version o) (ConnAck (Mk_connack_packet (op_version o) (resumes k w) Success q))
                   (canon (ConnAck (Mk_connack_packet (op_version o) (resumes k w) Success q)))).
    { apply connack_carried; [|reflexivity]. unfold q. destruct (presented k); [|exact I].
      destruct (supports_properties (op_version o)); [|exact I]. eexists. split; [reflexivity|exact Hu]. }
    cbn [canon] in Hc. eexists _, _, _. split; [exact Hout|]. split; [exact Hc|]. split.
    + intros _. cbn [ca_protocol_version ca_session_present ca_reason_code ca_properties].
      unfold identifier in Hsi. unfold q in *. rewrite Hid in *. destruct (supports_properties (op_version o)) eqn:Es.
      * destruct (op_client_id o) as [[|a l]|] eqn:Eo; cbn [perform_connect] ; cbn -[assigned_props connack_props_default];
          rewrite ?Eo; cbn; eexists _, _, _; (split; [reflexivity|split; [exact Hs'|left; symmetry; exact Hsi]]).
      * destruct (op_client_id o) as [[|a l]|] eqn:Eo; cbn; rewrite ?Eo;
          eexists _, _, _; (split; [reflexivity|split; [exact Hs'|]]); auto.
    + intros Hx. exfalso. apply Hx, Hacc, authenticated_iff, Ea.
  - rewrite (connect_reject cfg c k u true w Hn Ea) in H. injection H as <- <-.
    assert (Hc : carried (op_version o) (ConnAck (Mk_connack_packet (op_version o) false BadUserNameOrPassword None))
                   (canon (ConnAck (Mk_connack_packet (op_version o) false BadUserNameOrPassword None)))).
    { apply connack_carried; [exact I|reflexivity]. }
    cbn [canon] in Hc. eexists _, _, _. split; [reflexivity|]. split; [exact Hc|]. split.
    + intros Hx. apply Hacc, authenticated_iff in Hx. congruence.
    + intros _. split; [|reflexivity]. cbn [ca_protocol_version]. destruct (supports_properties (op_version o)); reflexivity.
Qed.
Print Assumptions C71_connect_result_partial.

(** Against any server: connect() succeeds only on a CONNACK with code Success, and
    reports a refusal exactly when there was one, with the server's reason. *)
Theorem C71_believes_the_answer o answer :
  (forall id, perform_connect o answer = COk id <->
     exists k, answer = Some (RPacket (ConnAck k)) /\ ca_reason_code k = Success /\
       ((exists q, ca_properties k = Some q /\ cap_assigned_client_id q = Some id) \/
        ((forall q, ca_properties k = Some q -> cap_assigned_client_id q = None) /\
         (op_client_id o = Some id \/ (op_client_id o = None /\ id = []))))) /\
  (forall r, perform_connect o answer = CErr (CConnectionRefused r) <->
     exists k, answer = Some (RPacket (ConnAck k)) /\ ca_reason_code k = r /\ r <> Success) /\
  (perform_connect o answer = CPanic <-> answer = Some RPanic).
Proof.
  assert (Hr : forall r, reason_eqb r Success = true <-> r = Success) by (intros []; split; intros H; try discriminate H; reflexivity).
  split; [|split].
  - intros id. split.
    + destruct answer as [[k| |[]|]|]; try discriminate. destruct k as [| a | | | | | | | | | | | | |]; try discriminate. cbn [perform_connect].
      destruct (reason_eqb (ca_reason_code a) Success) eqn:E; [|discriminate]. cbn [negb]. apply Hr in E.
      intros H. exists a. split; [reflexivity|]. split; [exact E|]. destruct (ca_properties a) as [q|].
      * destruct (cap_assigned_client_id q) eqn:Eq; [injection H as <-; left; eauto|]. right.
        split; [intros q' Hq; injection Hq as <-; exact Eq|]. destruct (op_client_id o); injection H as <-; auto.
      * right. split; [discriminate|]. destruct (op_client_id o); injection H as <-; auto.
    + intros (k & -> & E & H). cbn [perform_connect]. apply Hr in E. rewrite E. cbn [negb].
      destruct H as [(q & -> & ->)|[Hq Ho]]; [reflexivity|].
      assert (Hn : match ca_properties k with Some q => cap_assigned_client_id q | None => None end = None)
        by (destruct (ca_properties k); auto).
      cbv zeta. rewrite Hn. destruct Ho as [->|[-> ->]]; reflexivity.
  - intros r. split.
    + destruct answer as [[k| |[]|]|]; try discriminate. destruct k as [| a | | | | | | | | | | | | |]; try discriminate. cbn [perform_connect].
      destruct (reason_eqb (ca_reason_code a) Success) eqn:E; [discriminate|]. cbn [negb]. intros H. injection H as <-.
      exists a. split; [reflexivity|]. split; [reflexivity|]. intros H. apply Hr in H. congruence.
    + intros (k & -> & <- & H). cbn [perform_connect]. destruct (reason_eqb (ca_reason_code k) Success) eqn:E; [|reflexivity].
      apply Hr in E. contradiction.
  - split; [|intros ->; reflexivity]. destruct answer as [[k| |[]|]|]; try discriminate; auto.
    destruct k; try discriminate. cbn [perform_connect]. destruct (negb _); discriminate.
Qed.
Print Assumptions C71_believes_the_answer.
(** Every other failure says which it was: no answer in time, a failed read, bytes that are no packet, a closed connection, another packet
    than CONNACK; there are no more. *)
Theorem C71_says_why o answer :
  (perform_connect o answer = CErr CTimeout <-> answer = None) /\
  (perform_connect o answer = CErr CIo <-> answer = Some (RError EIo)) /\
  (forall e, perform_connect o answer = CErr (CPacket e) <-> answer = Some (RError e) /\ e <> EIo) /\
  (perform_connect o answer = CErr CConnectionFailed <-> answer = Some RClosed) /\
  (perform_connect o answer = CErr CProtocol <-> exists k, answer = Some (RPacket k) /\ forall a, k <> ConnAck a) /\
  perform_connect o answer <> CErr CDisconnected /\ perform_connect o answer <> CErr CSendError.
Proof.
  destruct answer as [[k| |e|]|].
  - destruct k as [| a | | | | | | | | | | | | |]; cbn [perform_connect]; try destruct (negb _);
      (split; [split; discriminate|]; split; [split; discriminate|]; split; [intros e; split; [discriminate|intros [H _]; discriminate]|];
       split; [split; discriminate|]; split; [|split; discriminate]);
      (split; [first [discriminate|intros _; eexists; split; [reflexivity|discriminate]]|intros (k & E & Hk); injection E as <-; first [reflexivity|exfalso; eapply Hk; reflexivity]]).
  - cbn. repeat split; try discriminate; try (intros [? ?]; discriminate); try (intros (? & ? & _); discriminate).
  - destruct e; cbn; repeat split; try discriminate; intros; try congruence;
      try match goal with H : CErr _ = CErr _ |- _ => inversion H; subst; congruence end;
      try match goal with H : _ /\ _ |- _ => destruct H; congruence end;
      try match goal with H : exists _, _ |- _ => destruct H as (? & ? & _); discriminate end.
  - cbn. repeat split; try discriminate; try (intros [? ?]; discriminate); try (intros (? & ? & _); discriminate).
  - cbn. repeat split; try discriminate; try (intros [? ?]; discriminate); try (intros (? & ? & _); discriminate).
Qed.
Print Assumptions C71_says_why.
Example C71_refused_ex :
  perform_connect (Mk_connect_options None None None 60 true None V5) (Some (RPacket (ConnAck (Mk_connack_packet V5 false ServerBusy None))))
    = CErr (CConnectionRefused ServerBusy).
Proof. reflexivity. Qed.

(** The options of an MQTT 3.1.1 client that leaves its identifier to the broker: connect()
    returns the empty identifier although the broker made one up. *)
Definition ex_options_v3 : connect_options := Mk_connect_options None None None 60 true None V3_1_1.
Theorem C71_identifier_refuted : exists o u k w' x y more i s,
  options_fit o /\ wf_str u /\ (forall v, carried v (Connect (build_connect o)) (Connect k)) /\
  step ex_open world_new (EFirst 1 (Some (Connect k)) u true) = (w', Sent 1 (ConnAck x) :: more) /\
  carried (op_version o) (ConnAck x) (ConnAck y) /\ serves w' 1 i s /\
  perform_connect o (Some (RPacket (ConnAck y))) = COk [] /\ se_client_id s = u /\ u <> [].
Proof.
  assert (Ho : options_fit ex_options_v3).
  { unfold options_fit. cbn. repeat split. }
  assert (Hu : wf_str (str "u1")) by (split; [apply utf8_valid_iff; vm_compute; reflexivity|vm_compute; discriminate]).
  destruct (connect_sent _ Ho) as (bs & Hbs & Hl & Hwf).
  exists ex_options_v3, (str "u1"), (canon_connect (build_connect ex_options_v3)).
  do 6 eexists. split; [exact Ho|]. split; [exact Hu|]. split; [|split; [vm_compute; reflexivity|split; [|split; [|split]]]].
  - intros v. exists bs. split; [exact Hbs|]. intros p rest.
    apply (C08_packets_round_trip_partial p v _ bs rest Hbs Hl Hwf); exact I.
  - exact (connack_carried V3_1_1 V3_1_1 false Success None I eq_refl).
  - split; vm_compute; reflexivity.
  - reflexivity.
  - split; [reflexivity|discriminate].
Qed.
Print Assumptions C71_identifier_refuted.

Example C71_ex : options_fit ex_client_options /\ admits ex_open ex_client_options /\ ~ admits ex_closed ex_client_options
  /\ reachable ex_closed world_new /\ not_served world_new 1.
Proof.
  split; [apply C58_ex|]. split; [left; reflexivity|]. split; [|split; [exists []; reflexivity|reflexivity]].
  intros [H|(u & p & v & H1 & H2 & H3 & H4)]; [discriminate|].
  injection H1 as <-. injection H2 as <-. injection H3 as <-. vm_compute in H4. discriminate.
Qed.

(** * C72: from publish() to recv() *)

(** The PUBLISH packets the broker has read from connection [a]. *)
Definition publishes_from (a : nat) (es : list event) : list publish_packet :=
  flat_map (fun e => match e with EPacket d (Publish p) => if Nat.eqb d a then [p] else [] | _ => [] end) es.
(** The PUBLISH packets the broker has sent to connection [c]. *)
Definition publishes_sent (c : nat) (o : list output) : list publish_packet :=
  flat_map (fun x => match x with Sent d (Publish q) => if Nat.eqb d c then [q] else [] | _ => [] end) o.
(** The PUBLISH packets a client has written. *)
Definition publishes_written (outs : list coutput) : list publish_packet :=
  flat_map (fun k => match k with Publish b => [b] | _ => [] end) (written outs).
(** The calls of publish(), with their arguments. *)
Definition publish_calls (is : list cinput) : list (bytes * bytes * qos * bool) :=
  flat_map (fun i => match i with ICommand (CmdPublish t d q r) _ => [(t, d, q, r)] | _ => [] end) is.
Definition call_fits (x : bytes * bytes * qos * bool) : Prop :=
  let '(t, d, q, r) := x in wf_str t /\ q <> QInvalid /\ blen t + blen d + 5 <= vbi_max.
(** A PUBLISH that can be sent: it has a QoS and the identifier the QoS asks for, and fits. *)
Definition sendable (b : publish_packet) : Prop :=
  wf_packet (Publish b) /\ forall bs, packet_enc (Publish b) = Ok bs -> blen bs <= max_frame.
(** What the application is told about a message sent for filter [f], or given to publish(). *)
Definition as_told (f : bytes) (m : message) : cevent :=
  Message f (match mg_payload m with Some d => d | None => [] end) (mg_qos m) false.
Definition call_told (f : bytes) (x : bytes * bytes * qos * bool) : cevent :=
  let '(t, d, q, r) := x in Message f d q false.
Definition call_on (t : bytes) (x : bytes * bytes * qos * bool) : bool := bytes_eqb (fst (fst (fst x))) t.
Definition told_on (f : bytes) (e : cevent) : bool :=
  match e with Message t _ _ _ => bytes_eqb t f | Disconnected _ => false end.

(** ** The publishing client *)
Definition asks (x : bytes * bytes * qos * bool) (b : publish_packet) : Prop :=
  let '(t, d, q, r) := x in exists id, b = Mk_publish_packet false q r t id None (Some d) /\
    match q, id with AtMostOnce, None => True | AtMostOnce, Some _ => False | _, Some i => wf_id i | _, None => False end.

Lemma publishes_written_app a b : publishes_written (a ++ b) = publishes_written a ++ publishes_written b.
Proof. unfold publishes_written. rewrite written_app. apply flat_map_app. Qed.
Lemma alive_before c i c' out : cstep c i = Some (c', out) -> cl_alive c' = true -> cl_alive c = true.
Proof.
  intros H Ha. destruct (cl_alive c) eqn:E; [reflexivity|]. exfalso.
  unfold cstep in H. destruct i; rewrite ?E in H; cbn in H; try discriminate.
  - destruct (cl_dropped c || is_some (cl_waiting c)); [discriminate|]. injection H as <- <-. congruence.
  - destruct (cl_dropped c); [discriminate|]. unfold recv in H. repeat case_match; inv H; cbn in Ha; congruence.
  - destruct (cl_dropped c); [discriminate|]. injection H as <- <-. cbn in Ha. congruence.
Qed.
Lemma calls_written is c outs : cruns client_new is c outs -> healthy is -> cl_alive c = true ->
  Forall call_fits (publish_calls is) -> Forall2 asks (publish_calls is) (publishes_written outs).
Proof.
  intros H. pose proof H as Hr0. remember client_new as c0 eqn:E0. revert Hr0.
  induction H as [|is c1 outs i c2 out Hr IH Hs]; intros Hr0 Hh Ha Hf; [constructor|].
  assert (Ha1 : cl_alive c1 = true) by (eapply alive_before; eauto).
  assert (Hh1 : healthy is) by (intros j Hj; apply Hh, in_or_app; auto).
  assert (Hok : match i with IRead _ ok | ICommand _ ok | ITick ok => ok = true | _ => True end).
  { apply Hh, in_or_app. right. left. reflexivity. }
  unfold publish_calls in *. rewrite flat_map_app in *. apply Forall_app in Hf. destruct Hf as [Hf1 Hf2].
  rewrite publishes_written_app. apply Forall2_app; [exact (IH Hr Hh1 Ha1 Hf1)|].
  subst c0. pose proof (proj1 (ids_used _ _ _ Hr)) as Hid.
  assert (Hlt : cl_next c1 < 65536) by (rewrite Hid; apply N.mod_upper_bound; discriminate).
  clear IH Hr0 Hr Hh Hf1. apply cstep_inv in Hs.
  inversion Hs; subst; try constructor; cbn in Hok; try subst ok; unfold publishes_written; rewrite ?outcome_written; cbn;
    try (match goal with H : cl_alive c2 = false |- _ => congruence end); try constructor.
  - eexists. split; [reflexivity|exact I].
  - constructor.
  - eexists. split; [reflexivity|]. cbn in Hf2. apply Forall_inv in Hf2. destruct Hf2 as (_ & Hq & _). destruct q; try exact Hlt; congruence.
  - constructor.
Qed.

(** ** The broker *)
Lemma served_before cfg e w w' o a : step cfg w e = (w', o) -> ~ first_on a e -> ~ not_served w' a -> ~ not_served w a.
Proof.
  intros H Hf Hn Hx. destruct (step_conns cfg w e w' o a H) as [Hc|Hc].
  - intros k u b ->. apply Hf. exists k, u, b. reflexivity.
  - apply Hn. red. rewrite Hc. exact Hx.
  - contradiction.
Qed.
Lemma served_run cfg es a : forall w, (forall e, In e es -> ~ first_on a e) -> ~ not_served (fst (run cfg es w)) a -> ~ not_served w a.
Proof.
  induction es as [|e es IH]; intros w Hf Hn; [exact Hn|]. rewrite run_cons in Hn. cbn [fst] in Hn.
  destruct (step cfg w e) as [w1 o1] eqn:E. cbn [fst] in Hn.
  eapply served_before; [exact E|apply Hf; left; reflexivity|]. apply IH; auto. intros e0 H0. apply Hf. right. exact H0.
Qed.
Lemma served_serves w a : wf w -> ~ not_served w a -> exists i s, serves w a i s.
Proof.
  intros Hwf Hn. unfold not_served in Hn. destruct (aget Nat.eqb a (w_conns w)) as [i|] eqn:E; [|congruence].
  destruct (nth_error (w_heap w) i) as [s|] eqn:Es; [exists i, s; split; auto|].
  apply nth_error_None in Es. pose proof (proj2 Hwf a i E). lia.
Qed.
Lemma publishes_from_cons a e es : publishes_from a (e :: es) = publishes_from a [e] ++ publishes_from a es.
Proof. unfold publishes_from. cbn [flat_map]. rewrite app_nil_r. reflexivity. Qed.
Lemma published_logged cfg es a f t : topic_name t -> matches f t -> forall h w, prov h w ->
  node_at (levels f) (bk_tree (w_broker w)) <> None ->
  (forall e, In e es -> e <> ERestart /\ ~ first_on a e) -> ~ not_served (fst (run cfg es w)) a ->
  exists log, sent_to (fst (run cfg es w)) f = sent_to w f ++ log /\
    subseq (map Session.message_of (filter (fun p => bytes_eqb (pb_topic p) t) (publishes_from a es))) log.
Proof.
  intros Ht Hm. induction es as [|e es IH]; intros h w Hp Hn He Ha.
  { exists []. split; [symmetry; apply app_nil_r|constructor]. }
  pose proof (served_run cfg (e :: es) a w (fun e H => proj2 (He e H)) Ha) as Ha0.
  destruct (He e (or_introl eq_refl)) as [He1 _].
  rewrite run_cons in *. cbn [fst] in *. destruct (step cfg w e) as [w1 o1] eqn:E. cbn [fst] in *.
  pose proof (pv_wf _ _ Hp) as Hwf. destruct (step_after cfg w e w1 o1 Hwf He1 E) as [Htr _].
  assert (Hn1 : node_at (levels f) (bk_tree (w_broker w1)) <> None) by (rewrite Htr; apply ops_node, Hn).
  destruct (IH _ w1 (step_prov _ _ _ _ _ _ Hp E) Hn1 (fun e H => He e (or_intror H)) Ha) as (log & Hl & Hs).
  assert (Hone : exists new, sent_to w1 f = sent_to w f ++ new /\
    subseq (map Session.message_of (filter (fun p => bytes_eqb (pb_topic p) t) (publishes_from a [e]))) new).
  { assert (Hgr : exists new, sent_to w1 f = sent_to w f ++ new) by exact (step_log_grows cfg w e w1 o1 (levels f) Hwf He1 E).
    destruct Hgr as [new Hnew].
    destruct e as [d k u x|d k|d g|d|d|]; try (exists new; split; [exact Hnew|apply subseq_nil]).
    destruct k; try (exists new; split; [exact Hnew|apply subseq_nil]).
    unfold publishes_from. cbn [flat_map]. rewrite app_nil_r.
    destruct (Nat.eqb d a) eqn:Ed; [|exists new; split; [exact Hnew|apply subseq_nil]].
    cbn [filter]. destruct (bytes_eqb (pb_topic b) t) eqn:Eb; [|exists new; split; [exact Hnew|apply subseq_nil]].
    apply Nat.eqb_eq in Ed. subst d. apply beqb_spec in Eb.
    destruct (served_serves w a Hwf Ha0) as (i & s & Hsv).
    unfold step_ops in Htr. rewrite (serves_session _ _ _ _ Hsv) in Htr. cbn [packet_ops] in Htr. unfold publish_ops in Htr.
    rewrite Eb, (proj2 (publish_topic_iff _ (topic_name_utf8 _ Ht)) Ht) in Htr.
    set (more := if fails _ _ _ _ then _ else _) in Htr. cbn [app] in Htr.
    change (broker_run (BPub t (Session.message_of b) :: more) (w_broker w))
      with (broker_run more (broker_step (w_broker w) (BPub t (Session.message_of b)))) in Htr.
    destruct (ops_log_grows more (broker_step (w_broker w) (BPub t (Session.message_of b))) (levels f)) as [gr Hgr].
    exists (Session.message_of b :: gr). split; [|constructor; apply subseq_nil].
    unfold sent_to. rewrite Htr, Hgr. cbn [broker_step]. simpl bk_tree. rewrite route_log by (auto using topic_name_plain).
    destruct (matches_dec f t); [|contradiction]. rewrite <- app_assoc. reflexivity. }
  destruct Hone as (new & Hnew & Hsub). exists (new ++ log). split; [rewrite Hl, Hnew, app_assoc; reflexivity|].
  rewrite publishes_from_cons, filter_app, map_app. apply subseq_app; assumption.
Qed.
Lemma deliveries_filter c f o : deliveries c f o = filter (fun q => bytes_eqb (pb_topic q) f) (publishes_sent c o).
Proof.
  induction o as [|x o IH]; [reflexivity|]. unfold publishes_sent in *. cbn [flat_map]. rewrite filter_app, <- IH.
  destruct x as [d [] |d|d]; try reflexivity. cbn [deliveries]. destruct (Nat.eqb d c); [|reflexivity].
  cbn [filter]. destruct (bytes_eqb (pb_topic b) f); reflexivity.
Qed.

(** ** The subscribing client *)
(** The packets [ys] have been read, in order, out of those sent. *)
Definition conveyed (v : version) (xs ys : list publish_packet) : Prop :=
  exists n, Forall2 (fun x y => carried v (Publish x) (Publish y)) (firstn n xs) ys.
Definition same_content (x y : publish_packet) : Prop :=
  pb_topic y = pb_topic x /\ pb_qos y = pb_qos x /\ pb_retain y = pb_retain x /\ pb_dup y = pb_dup x
  /\ pb_payload y = Some (match pb_payload x with Some d => d | None => [] end).
Lemma conveyed_same v xs ys : Forall sendable xs -> conveyed v xs ys -> exists n, Forall2 same_content (firstn n xs) ys.
Proof.
  intros Hs [n H]. exists n. assert (Hf : Forall sendable (firstn n xs)).
  { rewrite <- (firstn_skipn n xs) in Hs. apply Forall_app in Hs. apply Hs. }
  revert Hf. induction H as [|x y l l' Hxy H IH]; intros Hf; constructor; [|apply IH; inversion Hf; auto].
  inversion Hf as [|? ? [Hwf Hl] Hf']; subst. destruct Hxy as (bs & Hbs & Hp).
  specialize (Hp Release []). rewrite (C08_packets_round_trip_partial Release v _ bs [] Hbs (Hl bs Hbs) Hwf I I) in Hp.
  cbn [canon] in Hp. injection Hp as <-. repeat split. cbn. destruct (pb_payload x); reflexivity.
Qed.
Lemma filter_firstn {A} (g : A -> bool) n l : exists k, filter g (firstn n l) = firstn k (filter g l) /\ k = length (filter g (firstn n l)).
Proof.
  exists (length (filter g (firstn n l))). split; [|reflexivity]. rewrite <- (firstn_skipn n l) at 3. rewrite filter_app.
  rewrite firstn_app, Nat.sub_diag, firstn_O, app_nil_r, firstn_all. reflexivity.
Qed.

Lemma subseq_map {A B} (g : A -> B) a b : subseq a b -> subseq (map g a) (map g b).
Proof. induction 1; cbn [map]; constructor; assumption. Qed.
Lemma subseq_app_front {A} (a b c : list A) : subseq a c -> subseq a (b ++ c).
Proof. induction b as [|x b IH]; [auto|]. intros H. cbn [app]. constructor. auto. Qed.
Lemma Forall2_skipn {A B} (R : A -> B -> Prop) n : forall a b, Forall2 R a b -> Forall2 R (skipn n a) (skipn n b).
Proof. induction n as [|n IH]; intros a b H; [exact H|]. destruct H; [constructor|]. apply IH. assumption. Qed.
Lemma Forall_skipn {A} (P : A -> Prop) n l : Forall P l -> Forall P (skipn n l).
Proof. intros H. rewrite <- (firstn_skipn n l) in H. apply Forall_app in H. apply H. Qed.
Lemma asks_sendable cs bs : Forall call_fits cs -> Forall2 asks cs bs -> Forall sendable bs.
Proof.
  intros Hf H. induction H as [|[[[t d] q] r] b cs bs Ha H IH]; [constructor|].
  pose proof (Forall_inv Hf) as (Ht & Hq & Hl). pose proof (Forall_inv_tail Hf) as Hf'. constructor; [|apply IH, Hf'].
  destruct Ha as (id & -> & Hid). split.
  - split; [exact Hq|]. split; [exact Ht|]. split; [exact Hid|exact I].
  - intros bs' Hbs. destruct (publish_sent id t d q r Hl) as (bs2 & Hb2 & Hlen). unfold publish_request in Hb2. congruence.
Qed.
Lemma asks_conveyed cs bs n ys : Forall2 asks cs bs -> Forall2 same_content (firstn n bs) ys ->
  Forall2 (fun x y => exists z, asks x z /\ same_content z y) (firstn (length ys) cs) ys.
Proof.
  intros H. revert n ys. induction H as [|x z cs bs Ha H IH]; intros n ys Hy.
  - rewrite firstn_nil in Hy. inversion Hy. constructor.
  - destruct n as [|n]; [inversion Hy; constructor|]. cbn [firstn] in Hy. inversion Hy as [|? y ? ys' Hxy Hy']; subst.
    cbn [length firstn]. constructor; [eauto|eapply IH; eauto].
Qed.
Lemma calls_told f t cs ys : Forall2 (fun x y => exists z, asks x z /\ same_content z y) cs ys ->
  map (call_told f) (filter (call_on t) cs)
  = map (as_told f) (map Session.message_of (filter (fun p => bytes_eqb (pb_topic p) t) ys)).
Proof.
  induction 1 as [|[[[t' d] q] r] y cs ys Hx H IH]; [reflexivity|]. destruct Hx as (z & (id & -> & _) & (H1 & H2 & _ & _ & H5)).
  cbn [pb_topic pb_qos pb_payload] in *. cbn [filter]. unfold call_on at 1. cbn [fst]. rewrite H1.
  destruct (bytes_eqb t' t); [|exact IH]. cbn [map]. rewrite IH. f_equal.
  unfold call_told, as_told, Session.message_of. cbn. rewrite H5, H2. reflexivity.
Qed.

(** One client publishes, another has subscribed; broker, publisher and subscriber take any
    steps, and so do all other clients. Then what the subscriber's application is told for
    its filter is, in order and without gaps, what the broker had retained for the filter and
    what it has routed to it since; and everything the publisher gave to publish() on a
    matching topic and the broker has read is among it, in order. Missing: the topic told is
    the filter subscribed to (below); more than 16 waiting messages; QoS 2 handshakes. *)
Theorem C72_publish_to_recv_partial cfg w0 c i s0 p w o id f es a t v isa ca outsa na isb cb outsb nb :
  (* the subscription *)
  reachable cfg w0 -> serves w0 c i s0 -> Forall (fun fo => utf8 (fst fo)) (sb_payload p) ->
  In f (map fst (sb_payload p)) -> topic_filter f ->
  step cfg w0 (EPacket c (Subscribe p)) = (w, o) ->
  unshared w c i id -> (forall e, In e es -> quiet c id f e) ->
  (forall s st, serves w c i s -> subscription s f st -> keeps_up cfg w c f st es) ->
  (* the publisher *)
  cruns client_new isa ca outsa -> healthy isa -> cl_alive ca = true -> Forall call_fits (publish_calls isa) ->
  (forall e, In e es -> ~ first_on a e) -> ~ not_served (fst (run cfg es w)) a ->
  conveyed V5 (skipn na (publishes_written outsa)) (publishes_from a es) ->
  topic_name t -> matches f t ->
  (* the subscriber *)
  cruns client_new isb cb outsb -> healthy isb -> ~ In IDrop isb ->
  Forall sendable (publishes_sent c (snd (run cfg es w))) ->
  conveyed v (publishes_sent c (snd (run cfg es w))) (map fst (skipn nb (publishes_read isb))) ->
  let published := firstn (length (publishes_from a es)) (skipn na (publish_calls isa)) in
  let heard := filter (told_on f) (skipn nb (messages (told cb outsb))) in
  let due := map (as_told f) (mem_get_retained f (w_store w0) ++ skipn (length (sent_to w0 f)) (sent_to (fst (run cfg es w)) f)) in
  heard = firstn (length heard) due /\ subseq (map (call_told f) (filter (call_on t) published)) due.
Proof.
  intros Hr0 Hs0 Hu Hin Hf Hsub U Hq Hk Ra Hha Haa Hfa Hna Hsa Hca Ht Hm Rb Hhb Hdb Hsend Hcb published heard due.
  assert (Hr : reachable cfg w).
  { destruct Hr0 as [es0 H0]. exists (es0 ++ [EPacket c (Subscribe p)]). rewrite run_app. cbn [fst]. rewrite H0.
    rewrite run_cons, Hsub. reflexivity. }
  destruct (C31_suback_mirrors_subscribe cfg w0 c i s0 p w o Hs0 Hu Hsub)
    as (s & codes & _ & _ & Hs & _ & _ & _ & Hst & _ & Hnr & _).
  specialize (Hst f Hin Hf). set (st := Mk_stream _ _) in Hst.
  assert (Hlen : sent_to w f = sent_to w0 f) by (apply Hnr).
  split.
  - pose proof (C63_delivery_complete cfg es w c i id s f st Hr U Hs Hst Hq (Hk s st Hs Hst)) as Hd. cbv zeta in Hd.
    set (outs := snd (run cfg es w)) in *. subst heard.
    destruct (C59_qos1_acknowledged_partial isb cb outsb Rb Hdb Hhb) as [Hmsg _]. rewrite Hmsg, skipn_map, skipn_map.
    destruct (conveyed_same _ _ _ Hsend Hcb) as [n Hn].
    set (ys := map fst (skipn nb (publishes_read isb))) in *. clearbody ys.
    change (subscription s f st) in Hst. subst due.
    change (mem_get_retained f (w_store w0)) with (st_retained st). change (length (sent_to w0 f)) with (st_next st).
    set (log := st_retained st ++ skipn (st_next st) (sent_to (fst (run cfg es w)) f)) in *. clearbody log.
    rewrite deliveries_filter in Hd. set (X := publishes_sent c outs) in *. clearbody X.
    destruct (filter_firstn (fun q => bytes_eqb (pb_topic q) f) n X) as (k & Hk1 & _).
    assert (Hy : Forall2 same_content (filter (fun q => bytes_eqb (pb_topic q) f) (firstn n X)) (filter (fun q => bytes_eqb (pb_topic q) f) ys)).
    { clear -Hn. induction Hn as [|x y l l' Hxy H IH]; [constructor|]. cbn [filter].
      rewrite (proj1 Hxy). destruct (bytes_eqb (pb_topic x) f); [constructor; auto|auto]. }
    assert (Hfl : filter (told_on f) (map message_of ys) = map message_of (filter (fun q => bytes_eqb (pb_topic q) f) ys)).
    { clear. induction ys as [|y ys IH]; [reflexivity|]. cbn [map filter]. change (told_on f (message_of y)) with (bytes_eqb (pb_topic y) f).
      destruct (bytes_eqb (pb_topic y) f); cbn [map]; rewrite IH; reflexivity. }
    rewrite Hfl. rewrite Hk1 in Hy. clear Hfl Hk1 Hn.
    set (D := filter _ X) in *. clearbody D. set (Y := filter _ ys) in *. clearbody Y.
    clear -Hd Hy. revert k Y Hy. 
    assert (Hgen : forall (D : list publish_packet) log, Forall2 (sent_as f) D (firstn (length D) log) -> forall k Y, Forall2 same_content (firstn k D) Y ->
      map message_of Y = firstn (length (map message_of Y)) (map (as_told f) log)).
    { clear. induction D as [|d D IH]; intros log Hd k Y Hy.
      - rewrite firstn_nil in Hy. inversion Hy. reflexivity.
      - destruct log as [|m log]; [inversion Hd|]. cbn [length firstn] in Hd. inversion Hd as [|? ? ? ? Hsa Hd']; subst.
        destruct k as [|k]; [inversion Hy; reflexivity|]. cbn [firstn] in Hy. inversion Hy as [|? y ? Y' Hxy Hy']; subst.
        cbn [map length firstn]. f_equal; [|apply (IH log Hd' k Y' Hy')].
        destruct Hxy as (H1 & H2 & H3 & _ & H5), Hsa as (S1 & S2 & S3 & _ & _ & S6). unfold message_of, as_told.
        rewrite H1, H2, H3, H5, S1, S2, S3, S6. reflexivity. }
    intros k Y Hy. eapply Hgen; eauto.
  - destruct (reachable_prov cfg w Hr) as [h Hp].
    destruct (pv_subs h w Hp i s f st (proj2 Hs) Hst) as (_ & Hnode & _).
    assert (He : forall e, In e es -> e <> ERestart /\ ~ first_on a e) by (intros e He; split; [apply (Hq e He)|apply Hna, He]).
    destruct (published_logged cfg es a f t Ht Hm h w Hp Hnode He Hsa) as (log & Hl & Hss).
    subst due. rewrite Hl, Hlen, skipn_app, skipn_all, Nat.sub_diag. cbn [skipn app]. rewrite map_app.
    apply subseq_app_front.
    assert (He2 : map (call_told f) (filter (call_on t) published)
                  = map (as_told f) (map Session.message_of (filter (fun p => bytes_eqb (pb_topic p) t) (publishes_from a es)))).
    { subst published. apply calls_told. pose proof (calls_written _ _ _ Ra Hha Haa Hfa) as Hw.
      apply (Forall2_skipn _ na) in Hw. apply (Forall_skipn _ na) in Hfa.
      destruct (conveyed_same _ _ _ (asks_sendable _ _ Hfa Hw) Hca) as [n Hn]. eapply asks_conveyed; eauto. }
    rewrite He2. apply subseq_map, Hss.
Qed.
Print Assumptions C72_publish_to_recv_partial.

(** A concrete case: client "b" subscribes to x/+ on connection 1, client "a" publishes on
    x/y on connection 2. *)
Definition e2e_world0 : world := ex_world [ex_first 1 (ex_connect "b" true); ex_first 2 (ex_connect "a" true)].
Definition e2e_sub : subscribe_packet := Mk_subscribe_packet 7 None [(str "x/+", ex_options)].
Definition e2e_world : world := fst (step ex_open e2e_world0 (EPacket 1 (Subscribe e2e_sub))).
Definition e2e_wrote : publish_packet := Examples.ex_publish AtLeastOnce (Some 1) false "x/y" "v".
Definition e2e_read : publish_packet :=
  Mk_publish_packet false AtLeastOnce false (str "x/y") (Some 1) (Some publish_props_default) (Some (str "v")).
Definition e2e_events : list event := [EPacket 2 (Publish e2e_read); EOut 1 (str "x/+")].
Definition e2e_sent : publish_packet := Examples.ex_publish AtLeastOnce (Some 1) false "x/+" "v".
Definition e2e_got : publish_packet :=
  Mk_publish_packet false AtLeastOnce false (str "x/+") (Some 1) (Some publish_props_default) (Some (str "v")).
Definition e2e_calls : list cinput := [ICommand (CmdPublish (str "x/y") (str "v") AtLeastOnce false) true].
Definition e2e_reads : list cinput := [IRead (RPacket (Publish e2e_got)) true].

Lemma e2e_sendable b : sendable b -> (exists bs, packet_enc (Publish b) = Ok bs) ->
  forall v, exists y, carried v (Publish b) (Publish y) /\ Publish y = canon (Publish b).
Proof.
  intros [Hw Hl] [bs Hbs] v. eexists. split; [|reflexivity]. exists bs. split; [exact Hbs|]. intros p rest.
  exact (C08_packets_round_trip_partial p v _ bs rest Hbs (Hl bs Hbs) Hw I I).
Qed.
Lemma e2e_small b : match packet_enc (Publish b) with Ok bs => blen bs <=? max_frame | _ => true end = true ->
  forall bs, packet_enc (Publish b) = Ok bs -> blen bs <= max_frame.
Proof. intros H bs Hb. rewrite Hb in H. apply N.leb_le, H. Qed.
Lemma e2e_str s : utf8_valid (str s) = true -> (blen (str s) <=? 65535) = true -> wf_str (str s).
Proof. intros H1 H2. split; [apply utf8_valid_iff, H1|apply N.leb_le, H2]. Qed.
Lemma e2e_sendable1 : sendable e2e_wrote.
Proof.
  split; [|apply e2e_small; vm_compute; reflexivity].
  split; [discriminate|]. split; [apply e2e_str; vm_compute; reflexivity|]. split; [vm_compute; reflexivity|exact I].
Qed.
Lemma e2e_sendable2 : sendable e2e_sent.
Proof.
  split; [|apply e2e_small; vm_compute; reflexivity].
  split; [discriminate|]. split; [apply e2e_str; vm_compute; reflexivity|]. split; [vm_compute; reflexivity|exact I].
Qed.
Lemma e2e_carried1 v : carried v (Publish e2e_wrote) (Publish e2e_read).
Proof.
  destruct (e2e_sendable e2e_wrote e2e_sendable1 ltac:(eexists; vm_compute; reflexivity) v) as (y & Hy & E).
  injection E as ->. exact Hy.
Qed.
Lemma e2e_carried2 v : carried v (Publish e2e_sent) (Publish e2e_got).
Proof.
  destruct (e2e_sendable e2e_sent e2e_sendable2 ltac:(eexists; vm_compute; reflexivity) v) as (y & Hy & E).
  injection E as ->. exact Hy.
Qed.

(** The hypotheses of C72_publish_to_recv_partial, and what is told. *)
Example C72_ex : exists s0 o ca outsa cb outsb,
  reachable ex_open e2e_world0 /\ serves e2e_world0 1 0 s0 /\ Forall (fun fo => utf8 (fst fo)) (sb_payload e2e_sub) /\
  In (str "x/+") (map fst (sb_payload e2e_sub)) /\ topic_filter (str "x/+") /\
  step ex_open e2e_world0 (EPacket 1 (Subscribe e2e_sub)) = (e2e_world, o) /\
  unshared e2e_world 1 0 (str "b") /\ (forall e, In e e2e_events -> quiet 1 (str "b") (str "x/+") e) /\
  (forall s st, serves e2e_world 1 0 s -> subscription s (str "x/+") st -> keeps_up ex_open e2e_world 1 (str "x/+") st e2e_events) /\
  cruns client_new e2e_calls ca outsa /\ healthy e2e_calls /\ cl_alive ca = true /\ Forall call_fits (publish_calls e2e_calls) /\
  (forall e, In e e2e_events -> ~ first_on 2 e) /\ ~ not_served (fst (run ex_open e2e_events e2e_world)) 2 /\
  conveyed V5 (skipn 0 (publishes_written outsa)) (publishes_from 2 e2e_events) /\
  topic_name (str "x/y") /\ matches (str "x/+") (str "x/y") /\
  cruns client_new e2e_reads cb outsb /\ healthy e2e_reads /\ ~ In IDrop e2e_reads /\
  Forall sendable (publishes_sent 1 (snd (run ex_open e2e_events e2e_world))) /\
  conveyed V5 (publishes_sent 1 (snd (run ex_open e2e_events e2e_world))) (map fst (skipn 0 (publishes_read e2e_reads))) /\
  messages (told cb outsb) = [Message (str "x/+") (str "v") AtLeastOnce false].
Proof.
  do 6 eexists.
  split; [eexists; reflexivity|]. split; [split; vm_compute; reflexivity|].
  split; [constructor; [apply utf8_valid_iff; vm_compute; reflexivity|constructor]|].
  split; [left; reflexivity|]. split; [filter_tac|].
  split; [vm_compute; reflexivity|]. split.
  { split; [reflexivity|intros d|intros x].
    - vm_compute. repeat (destruct d as [|d]; try discriminate; auto).
    - intros H. destruct (bytes_eqb x (str "b")) eqn:E; [apply beqb_spec, E|]. exfalso. revert H.
      change (aget bytes_eqb x [(str "b", 0%nat); (str "a", 1%nat)] = Some 0%nat -> False). cbn [aget]. rewrite E.
      destruct (bytes_eqb x (str "a")); intros H; discriminate. }
  split.
  { intros e He. simpl in He. repeat (destruct He as [<-|He]; [
      split; [discriminate|]; split; [intros (c & k & u & a & H & _); discriminate|];
      split; [intros [(p & H & _)|(p & H & _)]; discriminate|intros (k & u & a & H); discriminate]|]). contradiction. }
  split.
  { intros s st [_ Hs] Hst. vm_compute in Hs. injection Hs as <-. vm_compute in Hst. injection Hst as <-.
    intros es1 es2 H.
    assert (Hn : es1 = firstn (length es1) (es1 ++ es2)) by (rewrite firstn_app, firstn_all, Nat.sub_diag; simpl; rewrite app_nil_r; reflexivity).
    rewrite <- H in Hn. rewrite Hn. destruct (length es1) as [|[|[|n]]]; vm_compute; lia. }
  split; [apply crun_sound; vm_compute; reflexivity|].
  split; [intros j [<-|[]]; reflexivity|]. split; [reflexivity|].
  split. { constructor; [|constructor]. split; [apply e2e_str; vm_compute; reflexivity|]. split; [discriminate|vm_compute; discriminate]. }
  split; [intros e [<-|[<-|[]]] (k & u & a & H); discriminate|]. split; [vm_compute; discriminate|].
  split. { exists 1%nat. constructor; [apply e2e_carried1|constructor]. }
  split; [name_tac|]. split; [match_tac|].
  split; [apply crun_sound; vm_compute; reflexivity|].
  split; [intros j [<-|[]]; reflexivity|]. split; [intros [H|[]]; discriminate|].
  assert (Hsent : publishes_sent 1 (snd (run ex_open e2e_events e2e_world)) = [e2e_sent]) by (vm_compute; reflexivity).
  rewrite Hsent. split; [constructor; [apply e2e_sendable2|constructor]|].
  split; [exists 1%nat; constructor; [apply e2e_carried2|constructor]|]. vm_compute. reflexivity.
Qed.

(** The application is told the filter instead of the topic. *)
Theorem C72_topic_refuted : exists ca outsa cb outsb w' more,
  cruns client_new e2e_calls ca outsa /\ written outsa = [Publish e2e_wrote] /\
  (forall v, carried v (Publish e2e_wrote) (Publish e2e_read)) /\
  run ex_open (EPacket 1 (Subscribe e2e_sub) :: e2e_events) e2e_world0 = (w', more ++ [Sent 1 (Publish e2e_sent)]) /\
  (forall v, carried v (Publish e2e_sent) (Publish e2e_got)) /\
  cruns client_new e2e_reads cb outsb /\
  publish_calls e2e_calls = [(str "x/y", str "v", AtLeastOnce, false)] /\
  told cb outsb = [Message (str "x/+") (str "v") AtLeastOnce false].
Proof.
  do 6 eexists. split; [apply crun_sound; vm_compute; reflexivity|]. split; [reflexivity|]. split; [exact e2e_carried1|].
  split; [match goal with |- _ = (_, _ ++ ?x) => idtac end|].
  2:{ split; [exact e2e_carried2|]. split; [apply crun_sound; vm_compute; reflexivity|]. split; reflexivity. }
  instantiate (2 := fst (run ex_open (EPacket 1 (Subscribe e2e_sub) :: e2e_events) e2e_world0)).
  instantiate (1 := removelast (snd (run ex_open (EPacket 1 (Subscribe e2e_sub) :: e2e_events) e2e_world0))).
  vm_compute. reflexivity.
Qed.
Print Assumptions C72_topic_refuted.
