(** Lemmas about the client library. *)
From Verif Require Import Base Utf8 Codec Tac SpecCodec CodecFacts Property SpecProperty PacketProps Packets SpecPackets
  PacketsFacts PacketsRoundtrip ParseFacts Frame FrameFacts WireFacts Client SpecClient.

Lemma enc_publish b : pb_properties b = None -> exists bs, packet_enc (Publish b) = Ok bs.
Proof. intros H. simpl. unfold publish_enc. rewrite H. simpl. eauto. Qed.
Lemma enc_subscribe id fs : exists bs, packet_enc (Subscribe (Mk_subscribe_packet id None fs)) = Ok bs.
Proof. simpl. unfold subscribe_enc. simpl. eauto. Qed.
Lemma enc_unsubscribe id fs : exists bs, packet_enc (Unsubscribe (Mk_unsubscribe_packet id None fs)) = Ok bs.
Proof. simpl. unfold unsubscribe_enc. simpl. eauto. Qed.
Lemma enc_puback id : exists bs, packet_enc (PubAck (Mk_ack_packet id Success None)) = Ok bs.
Proof. simpl. unfold ack_enc. simpl. eauto. Qed.

(** Writing never panics for the packets the client sends. *)
Lemma write_ok k ok bs : packet_enc k = Ok bs -> write_packet k ok = if ok then COk tt else CErr CIo.
Proof. intros H. unfold write_packet. rewrite H. reflexivity. Qed.

Lemma request_eq {A} k ok (r : A) mk c bs : packet_enc k = Ok bs ->
  request k ok r mk c =
  if ok then (c, [Wrote k; Answer (mk (COk r))]) else (c, [Failed k; Answer (mk (CErr CIo))]).
Proof. intros H. unfold request. rewrite (write_ok _ _ _ H). destruct ok; reflexivity. Qed.

(** ** The cases of a transition *)

Definition outcome {A} (ok : bool) (k : packet) (r : A) (mk : cres A -> reply) : list coutput :=
  if ok then [Wrote k; Answer (mk (COk r))] else [Failed k; Answer (mk (CErr CIo))].

Definition idle (c : client) : Prop := cl_alive c = true /\ cl_waiting c = None.

Inductive cstep_case (c : client) : cinput -> client -> list coutput -> Prop :=
| SCqos0 t d r ok : idle c -> cl_dropped c = false ->
    cstep_case c (ICommand (CmdPublish t d AtMostOnce r) ok) c
      (outcome ok (publish_request None t d AtMostOnce r) None Published)
| SCpublish t d q r ok : idle c -> cl_dropped c = false -> q <> AtMostOnce ->
    cstep_case c (ICommand (CmdPublish t d q r) ok) (next_id c)
      (outcome ok (publish_request (Some (cl_next c)) t d q r) (Some (cl_next c)) Published)
| SCsubscribe ts ok : idle c -> cl_dropped c = false ->
    cstep_case c (ICommand (CmdSubscribe ts) ok) (next_id c)
      (outcome ok (subscribe_request (cl_next c) ts)
         (map (fun t => Mk_sub_result (fst t) (snd t) true) ts) Subscribed)
| SCunsubscribe ts ok : idle c -> cl_dropped c = false ->
    cstep_case c (ICommand (CmdUnsubscribe ts) ok) (next_id c)
      (outcome ok (unsubscribe_request (cl_next c) ts) tt Unsubscribed)
| SCdisconnect ok : idle c -> cl_dropped c = false ->
    cstep_case c (ICommand CmdDisconnect ok) (report (Disconnected ClientInitiated) (stop c))
      (outcome ok disconnect_request tt DisconnectDone)
| SCrefused cmd ok : cl_alive c = false -> cl_waiting c = None -> cl_dropped c = false ->
    cstep_case c (ICommand cmd ok) c [Answer (refuse cmd)]
| SCqos1 b id ok : idle c -> pb_qos b = AtLeastOnce -> pb_packet_id b = Some id ->
    cstep_case c (IRead (RPacket (Publish b)) ok)
      (if ok then report (message_of b) c else c)
      (wrote (PubAck (Mk_ack_packet id Success None)) ok)
| SCmessage b ok : idle c -> (pb_qos b <> AtLeastOnce \/ pb_packet_id b = None) ->
    cstep_case c (IRead (RPacket (Publish b)) ok) (report (message_of b) c) []
| SCserver_disconnect d ok : idle c ->
    cstep_case c (IRead (RPacket (Disconnect d)) ok) (report (Disconnected ServerInitiated) c) []
| SCignored k ok : idle c ->
    match k with Publish _ | Disconnect _ => False | _ => True end ->
    cstep_case c (IRead (RPacket k) ok) c []
| SCclosed ok : idle c ->
    cstep_case c (IRead RClosed ok) (report (Disconnected ServerInitiated) (stop c)) []
| SCerror e ok : idle c ->
    cstep_case c (IRead (RError e) ok) (report (Disconnected ConnectionLost) (stop c)) []
| SCpanic ok : idle c -> cstep_case c (IRead RPanic ok) (stop c) [Panicked]
| SCtick : idle c -> cstep_case c (ITick true) c [Wrote PingReq]
| SCtick_failed : idle c ->
    cstep_case c (ITick false) (report (Disconnected KeepAliveLost) (stop c)) [Failed PingReq]
| SCrecv e q : cl_dropped c = false -> cl_queue c = e :: q ->
    cstep_case c IRecv
      (Mk_client (cl_next c) (q ++ match cl_waiting c with Some w => [w] | None => [] end) None
         (cl_alive c) (cl_dropped c)) [Received (Some e)]
| SCrecv_end : cl_dropped c = false -> cl_queue c = [] -> cl_alive c = false ->
    cstep_case c IRecv c [Received None]
| SCdrop : cl_dropped c = false ->
    cstep_case c IDrop (Mk_client (cl_next c) [] None (cl_alive c) true) [].

Lemma cstep_inv c i c' out : cstep c i = Some (c', out) -> cstep_case c i c' out.
Proof.
  intros H. destruct i as [r ok|cmd ok|ok| |]; cbn [cstep] in H.
  - destruct (cl_alive c) eqn:Ha; [|discriminate].
    destruct (cl_waiting c) eqn:Hw; [discriminate|]. cbn [negb orb is_some] in H.
    assert (Hi : idle c) by (split; assumption).
    destruct r as [k| |e|].
    + injection H as H. destruct k as [ | |b| | | | | | | | | | |d| ]; cbn [handle_incoming] in H;
        try (injection H as <- <-; apply SCignored; [exact Hi|exact I]).
      * destruct (pb_qos b) eqn:Hq; destruct (pb_packet_id b) as [id|] eqn:Hid;
          try (injection H as <- <-; rewrite <- Hq; apply SCmessage; [exact Hi|];
               first [left; congruence|right; congruence]).
        destruct (enc_puback id) as [bs Hbs]. rewrite (write_ok _ _ _ Hbs) in H.
        destruct ok; injection H as <- <-.
        -- rewrite <- Hq. exact (SCqos1 c b id true Hi Hq Hid).
        -- exact (SCqos1 c b id false Hi Hq Hid).
      * injection H as <- <-. apply SCserver_disconnect. exact Hi.
    + injection H as <- <-. apply SCclosed. exact Hi.
    + injection H as <- <-. apply SCerror. exact Hi.
    + injection H as <- <-. apply SCpanic. exact Hi.
  - destruct (cl_dropped c) eqn:Hd; [discriminate|].
    destruct (cl_waiting c) eqn:Hw; [discriminate|]. cbn [orb is_some] in H.
    destruct (cl_alive c) eqn:Ha.
    2:{ injection H as <- <-. apply SCrefused; assumption. }
    assert (Hi : idle c) by (split; assumption).
    injection H as H. destruct cmd as [t d q r|ts|ts|]; cbn [handle_command] in H.
    + destruct q.
      all: match type of H with
        | request (publish_request ?i _ _ ?q _) _ _ _ _ = _ =>
            destruct (enc_publish (Mk_publish_packet false q r t i None (Some d)) eq_refl) as [bs Hbs];
            unfold publish_request in H; erewrite request_eq in H by apply Hbs
        end.
      all: match goal with
        | |- cstep_case _ (ICommand (CmdPublish _ _ AtMostOnce _) ?ok) _ _ =>
            pose proof (SCqos0 c t d r ok Hi Hd) as Q
        | |- cstep_case _ (ICommand (CmdPublish _ _ ?q _) ?ok) _ _ =>
            pose proof (SCpublish c t d q r ok Hi Hd ltac:(discriminate)) as Q
        end; unfold outcome in Q; destruct ok; injection H as <- <-; exact Q.
    + destruct (enc_subscribe (cl_next c)
        (map (fun t => (fst t, Mk_sub_options (snd t) false false SendRetained)) ts)) as [bs Hbs].
      unfold subscribe_request in H. erewrite request_eq in H by apply Hbs.
      pose proof (SCsubscribe c ts ok Hi Hd) as Q. unfold outcome in Q.
      destruct ok; injection H as <- <-; exact Q.
    + destruct (enc_unsubscribe (cl_next c) ts) as [bs Hbs].
      unfold unsubscribe_request in H. erewrite request_eq in H by apply Hbs.
      pose proof (SCunsubscribe c ts ok Hi Hd) as Q. unfold outcome in Q.
      destruct ok; injection H as <- <-; exact Q.
    + rewrite (request_eq disconnect_request ok tt DisconnectDone c _ eq_refl) in H.
      pose proof (SCdisconnect c ok Hi Hd) as Q. unfold outcome in Q.
      destruct ok; cbn [fst snd] in H; rewrite Ha in H; injection H as <- <-; exact Q.
  - destruct (cl_alive c) eqn:Ha; [|discriminate].
    destruct (cl_waiting c) eqn:Hw; [discriminate|]. cbn [negb orb is_some] in H.
    assert (Hi : idle c) by (split; assumption).
    rewrite (write_ok PingReq ok _ eq_refl) in H.
    destruct ok; injection H as <- <-; [apply SCtick|apply SCtick_failed]; exact Hi.
  - destruct (cl_dropped c) eqn:Hd; [discriminate|]. unfold recv in H.
    destruct (cl_queue c) as [|e q] eqn:Hq.
    + destruct (cl_alive c) eqn:Ha; [discriminate|]. injection H as <- <-. apply SCrecv_end; assumption.
    + injection H as <- <-.
      replace (match cl_waiting c with Some w => q ++ [w] | None => q end)
        with (q ++ match cl_waiting c with Some w => [w] | None => [] end).
      * apply SCrecv; assumption.
      * destruct (cl_waiting c); [reflexivity|apply app_nil_r].
  - destruct (cl_dropped c) eqn:Hd; [discriminate|]. injection H as <- <-. apply SCdrop. exact Hd.
Qed.

(** ** Histories *)

(** Events not received yet. *)
Definition pending (c : client) : list cevent :=
  cl_queue c ++ match cl_waiting c with Some e => [e] | None => [] end.

Lemma report_pending e c : cl_dropped c = false -> cl_waiting c = None ->
  pending (report e c) = pending c ++ [e].
Proof.
  intros Hd Hw. unfold report, pending. rewrite Hd, Hw.
  destruct (Nat.ltb _ _); cbn [cl_queue cl_waiting]; rewrite ?Hw, ?app_nil_r; reflexivity.
Qed.
Lemma report_next e c : cl_next (report e c) = cl_next c.
Proof. unfold report. destruct (cl_dropped c); [reflexivity|]. destruct (Nat.ltb _ _); reflexivity. Qed.
Lemma report_alive e c : cl_alive (report e c) = cl_alive c.
Proof. unfold report. destruct (cl_dropped c) eqn:H; [congruence|]. destruct (Nat.ltb _ _); cbn; congruence. Qed.
Lemma report_dropped e c : cl_dropped (report e c) = cl_dropped c.
Proof. unfold report. destruct (cl_dropped c) eqn:H; [congruence|]. destruct (Nat.ltb _ _); cbn; congruence. Qed.

Lemma received_app a b : received (a ++ b) = received a ++ received b.
Proof. apply flat_map_app. Qed.
Lemma answers_app a b : answers (a ++ b) = answers a ++ answers b.
Proof. apply flat_map_app. Qed.
Lemma calls_app a b : calls (a ++ b) = calls a ++ calls b.
Proof. apply flat_map_app. Qed.
Lemma written_app a b : written (a ++ b) = written a ++ written b.
Proof. apply flat_map_app. Qed.
Lemma attempted_app a b : attempted (a ++ b) = attempted a ++ attempted b.
Proof. apply flat_map_app. Qed.
Lemma request_ids_app a b : request_ids (a ++ b) = request_ids a ++ request_ids b.
Proof. unfold request_ids. rewrite attempted_app. apply flat_map_app. Qed.
Lemma publishes_read_app a b : publishes_read (a ++ b) = publishes_read a ++ publishes_read b.
Proof. apply flat_map_app. Qed.
Lemma messages_app a b : messages (a ++ b) = messages a ++ messages b.
Proof. apply filter_app. Qed.
Lemma farewells_app a b : farewells (a ++ b) = farewells a ++ farewells b.
Proof. apply filter_app. Qed.

Lemma told_pending c outs : told c outs = received outs ++ pending c.
Proof. reflexivity. Qed.

Lemma outcome_received {A} ok k (r : A) mk : received (outcome ok k r mk) = [].
Proof. destruct ok; reflexivity. Qed.
Lemma outcome_answers {A} ok k (r : A) mk :
  answers (outcome ok k r mk) = [mk (if ok then COk r else CErr CIo)].
Proof. destruct ok; reflexivity. Qed.
Lemma outcome_attempted {A} ok k (r : A) mk : attempted (outcome ok k r mk) = [k].
Proof. destruct ok; reflexivity. Qed.
Lemma outcome_written {A} ok k (r : A) mk : written (outcome ok k r mk) = if ok then [k] else [].
Proof. destruct ok; reflexivity. Qed.
Lemma wrote_received k ok : received (wrote k ok) = [].
Proof. destruct ok; reflexivity. Qed.

(** The counter and the identifiers used so far. *)
Lemma ids_used is c outs : cruns client_new is c outs ->
  cl_next c = (1 + blen (request_ids outs)) mod two16 /\
  forall i id, nth_error (request_ids outs) i = Some id -> id = (N.of_nat i + 1) mod two16.
Proof.
  remember client_new as c0 eqn:E0. induction 1 as [|is c1 outs i c2 out Hr [IH1 IH2] Hs].
  - subst. split; [reflexivity|]. intros [|i] id H; discriminate.
  - specialize (IH1 ) . apply cstep_inv in Hs.
    assert (Hstep : (cl_next c2 = cl_next c1 /\ request_ids out = []) \/
                    (cl_next c2 = (cl_next c1 + 1) mod two16 /\ request_ids out = [cl_next c1])).
    { inversion Hs; subst;
        rewrite ?report_next; unfold request_ids;
        rewrite ?outcome_attempted; cbn;
        try (left; split; reflexivity); try (right; split; reflexivity).
      destruct ok; left; rewrite ?report_next; split; reflexivity. }
    rewrite request_ids_app.
    destruct Hstep as [[Hn Ho]|[Hn Ho]]; rewrite Ho, ?app_nil_r, Hn.
    + split; assumption.
    + split.
      * rewrite IH1. unfold blen. rewrite app_length. cbn [length].
        rewrite N.add_mod_idemp_l by discriminate. f_equal. lia.
      * intros j id Hj. destruct (Nat.lt_ge_cases j (length (request_ids outs))) as [Hlt|Hge].
        -- rewrite nth_error_app1 in Hj by exact Hlt. auto.
        -- rewrite nth_error_app2 in Hj by exact Hge.
           destruct (j - length (request_ids outs))%nat as [|m] eqn:Em; cbn in Hj.
           ++ injection Hj as <-. rewrite IH1. unfold blen. f_equal. lia.
           ++ destruct m; discriminate.
Qed.

(** What was told changes only by what the loop reports. *)
Lemma dropped_kept c i c' out : cstep c i = Some (c', out) -> i <> IDrop -> cl_dropped c' = cl_dropped c.
Proof.
  intros H Hi. apply cstep_inv in H. inversion H; subst; rewrite ?report_dropped; try reflexivity.
  - destruct ok; rewrite ?report_dropped; reflexivity.
  - congruence.
Qed.

Lemma not_dropped is c outs : cruns client_new is c outs -> ~ In IDrop is -> cl_dropped c = false.
Proof.
  remember client_new as c0 eqn:E0. induction 1 as [|is c1 outs i c2 out Hr IH Hs]; intros Hn.
  - subst. reflexivity.
  - rewrite (dropped_kept _ _ _ _ Hs).
    + apply IH. intros Q. apply Hn, in_or_app. left. exact Q.
    + intros ->. apply Hn, in_or_app. right. left. reflexivity.
Qed.

(** The events each transition reports. *)
Definition reports (c : client) (i : cinput) : list cevent :=
  match i with
  | IRead (RPacket (Publish b)) ok =>
      if match pb_qos b, pb_packet_id b with AtLeastOnce, Some _ => ok | _, _ => true end
      then [message_of b] else []
  | IRead (RPacket (Disconnect _)) _ => [Disconnected ServerInitiated]
  | IRead RClosed _ => [Disconnected ServerInitiated]
  | IRead (RError _) _ => [Disconnected ConnectionLost]
  | ITick false => [Disconnected KeepAliveLost]
  | ICommand CmdDisconnect _ => if cl_alive c then [Disconnected ClientInitiated] else []
  | _ => []
  end.

Lemma told_step c i c' out outs : cstep c i = Some (c', out) -> cl_dropped c = false -> i <> IDrop ->
  told c' (outs ++ out) = told c outs ++ reports c i.
Proof.
  intros H Hd Hi. apply cstep_inv in H. rewrite !told_pending, received_app.
  assert (Hs : forall e, idle c -> pending (report e (stop c)) = pending c ++ [e]).
  { intros e [_ Hw]. rewrite report_pending by assumption. reflexivity. }
  assert (Hp : forall e, idle c -> pending (report e c) = pending c ++ [e]).
  { intros e [_ Hw]. rewrite report_pending by assumption. reflexivity. }
  inversion H; subst; rewrite ?outcome_received, ?wrote_received, ?app_nil_r; cbn [reports received flat_map];
    rewrite ?app_nil_r; try rewrite Hs by assumption; try rewrite Hp by assumption;
    rewrite ?app_assoc; try reflexivity.
  - match goal with H : idle _ |- _ => destruct H as [-> _] end. reflexivity.
  - destruct cmd; try (rewrite app_nil_r; reflexivity).
    match goal with H : cl_alive _ = false |- _ => rewrite H end. rewrite app_nil_r; reflexivity.
  - match goal with Hq : pb_qos b = _, Hb : pb_packet_id b = _ |- _ => rewrite Hq, Hb end.
    destruct ok; [rewrite Hp by assumption|rewrite app_nil_r]; rewrite ?app_assoc; reflexivity.
  - destruct (pb_qos b) eqn:Hq, (pb_packet_id b) eqn:Hb; try reflexivity.
    match goal with H : _ \/ _ |- _ => destruct H; congruence end.
  - destruct k; try contradiction; rewrite app_nil_r; reflexivity.
  - unfold pending. cbn [cl_queue cl_waiting]. rewrite app_nil_r.
    match goal with H : cl_queue _ = _ |- _ => rewrite H end.
    rewrite <- !app_assoc. reflexivity.
  - congruence.
Qed.

Lemma pubacks_app a b : pubacks (a ++ b) = pubacks a ++ pubacks b.
Proof. unfold pubacks. rewrite written_app. apply flat_map_app. Qed.

Lemma publishes_told is c outs : cruns client_new is c outs -> ~ In IDrop is ->
  messages (told c outs) =
    map message_of (map fst (filter (fun x => is_nil (puback_due (fst x)) || snd x) (publishes_read is))) /\
  pubacks outs = flat_map (fun x : publish_packet * bool => if snd x then puback_due (fst x) else []) (publishes_read is).
Proof.
  intros H. pose proof H as Hr0. remember client_new as c0 eqn:E0. revert Hr0.
  induction H as [|is c1 outs i c2 out Hr IH Hs]; intros Hr0 Hn.
  - subst. split; reflexivity.
  - assert (Hn1 : ~ In IDrop is) by (intros Q; apply Hn, in_or_app; auto).
    assert (Hi : i <> IDrop) by (intros ->; apply Hn, in_or_app; right; left; reflexivity).
    destruct (IH Hr Hn1) as [IH1 IH2].
    assert (Hd : cl_dropped c1 = false) by (subst c0; exact (not_dropped _ _ _ Hr Hn1)).
    rewrite (told_step _ _ _ _ _ Hs Hd Hi), messages_app, pubacks_app, publishes_read_app, filter_app, !map_app,
      flat_map_app, IH1, IH2.
    assert (Hstep : messages (reports c1 i) =
        map message_of (map fst (filter (fun x => is_nil (puback_due (fst x)) || snd x) (publishes_read [i]))) /\
        pubacks out = flat_map (fun x : publish_packet * bool => if snd x then puback_due (fst x) else []) (publishes_read [i])).
    { clear IH1 IH2 IH Hr0 Hr Hn. apply cstep_inv in Hs. unfold pubacks.
      inversion Hs; subst; rewrite ?outcome_written; try (destruct ok); try (split; reflexivity).
      all: try (match goal with H : cl_alive _ = false |- _ => idtac | H : idle _ |- _ => destruct H as [H _] end).
      all: try (cbn [reports]; match goal with H : cl_alive _ = _ |- _ => rewrite H end; split; reflexivity).
      all: try (destruct cmd; cbn [reports]; try match goal with H : cl_alive _ = _ |- _ => rewrite H end; split; reflexivity).
      all: try (cbn; unfold puback_due;
                match goal with Hq : pb_qos _ = _, Hb : pb_packet_id _ = _ |- _ => rewrite Hq, Hb end;
                split; reflexivity).
      all: try (destruct k; try contradiction; split; reflexivity).
      all: cbn; unfold puback_due; destruct (pb_qos b), (pb_packet_id b); try (split; reflexivity);
           match goal with H : _ \/ _ |- _ => destruct H; congruence end. }
    destruct Hstep as [-> ->]. split; reflexivity.
Qed.

(** ** The CONNECT packet *)

Lemma venc_len n : blen (venc n) <= 5.
Proof.
  unfold venc, vbi_enc. assert (H : as_u32 n < 4294967296) by (unfold as_u32, two32; lia).
  revert H. generalize (as_u32 n). intros m H. cbn [vbi_enc_loop].
  repeat (match goal with |- context [if 0 <? ?x then _ else _] => destruct (N.ltb_spec 0 x) end);
    unfold blen; cbn [length]; lia.
Qed.

Lemma connect_sent o : options_fit o ->
  exists bs, packet_enc (Connect (build_connect o)) = Ok bs /\ blen bs <= max_frame /\
             wf_packet (Connect (build_connect o)).
Proof.
  intros (Hc & Hu & Hp & Hk & Hw).
  assert (Hwf : wf_connect (build_connect o)).
  { unfold wf_connect, build_connect. cbn.
    split; [exact Hk|]. split; [destruct (op_will o); [intros _; apply Hw|discriminate]|].
    split; [exact I|].
    split; [destruct (op_client_id o); [exact Hc|]; split; [exists []; split; constructor|vm_compute; discriminate]|].
    split; [destruct (op_will o); cbn; [split; [constructor|discriminate]|exact I]|].
    split; [destruct (op_will o); cbn; [apply Hw|exact I]|].
    split; [destruct (op_will o); cbn; [apply Hw|exact I]|].
    split; [destruct (op_username o); cbn; [exact Hu|exact I]|].
    destruct (op_password o); cbn; [exact Hp|exact I]. }
  destruct o as [cid user pass ka clean will v]. cbn in Hc, Hu, Hp, Hk, Hw.
  assert (Hcid : blen (match cid with Some i => i | None => [] end) <= 65535).
  { destruct cid; [apply Hc|vm_compute; discriminate]. }
  cbn [packet_enc]. unfold connect_enc, build_connect.
  cbn [op_version op_username op_password op_keep_alive op_clean_start op_will op_client_id
       c_protocol_version c_flags c_keepalive c_properties c_payload].
  destruct will as [w|], user as [u|], pass as [d|], v; cbn -[blen venc str_enc bin_enc u16_enc app str_size bin_size];
    (eexists; split; [reflexivity|split; [|exact Hwf]]);
    rewrite ?blen_app, ?blen_cons, ?blen_nil, ?blen_str_enc, ?blen_bin_enc, ?blen_u16;
    unfold str_size, bin_size, max_frame, vbi_max;
    repeat match goal with |- context [blen (venc ?x)] => pose proof (venc_len x); generalize dependent (blen (venc x)); intros end;
    cbn [owf] in Hu, Hp, Hw; repeat match goal with |- context [blen (u8_enc ?x)] => change (blen (u8_enc x)) with 1 end.
  all: try (unfold wf_str, wf_bin in *; repeat match goal with H : _ /\ _ |- _ => destruct H end).
  all: try (change (blen str_MQTT) with 4); try (change (blen str_MQIsdp) with 6); try lia.
  all: cbn -[blen venc str_enc bin_enc app N.add N.le]; rewrite ?blen_app, ?blen_nil, ?blen_str_enc, ?blen_bin_enc;
    unfold str_size, bin_size; pose proof (venc_len 0);
    change (blen (props_enc (will_props_list will_props_default))) with 0;
    change (@blen N []) with 0; lia.
Qed.

(** ** Requests *)

Lemma publish_sent id t d q r : blen t + blen d + 5 <= vbi_max ->
  exists bs, packet_enc (publish_request id t d q r) = Ok bs /\ blen bs <= max_frame.
Proof.
  intros H. unfold publish_request. cbn [packet_enc]. unfold publish_enc.
  cbn -[blen venc str_enc app str_size pid_size N.add publish_header u16_enc].
  eexists. split; [reflexivity|].
  rewrite ?blen_app, ?blen_cons, ?blen_nil, ?blen_str_enc, ?blen_opt_pid.
  assert (Hv : blen (venc (str_size t + pid_size id + 1 + 0 + blen d)) <= 4).
  { unfold venc. assert (Hs : str_size t + pid_size id + 1 + 0 + blen d <= vbi_max)
      by (unfold str_size, pid_size; destruct id; lia).
    replace (as_u32 _) with (str_size t + pid_size id + 1 + 0 + blen d)
      by (unfold as_u32, two32, vbi_max in *; lia).
    apply vbi_enc_len, Hs. }
  change (blen (venc 0)) with 1. change (blen (props_enc [])) with 0.
  unfold str_size, pid_size, max_frame in *. destruct id; cbn [osz opt_enc] in *; rewrite ?blen_u16, ?blen_nil; lia.
Qed.

Lemma frame_small h (body : bytes) : blen body <= vbi_max ->
  blen (h :: venc (blen body) ++ body) <= max_frame.
Proof.
  intros H. rewrite blen_cons, blen_app. unfold venc.
  replace (as_u32 (blen body)) with (blen body) by (unfold as_u32, two32, vbi_max in *; lia).
  pose proof (vbi_enc_len _ H). unfold max_frame. lia.
Qed.

Lemma subscribe_sent id ts : fold_right (fun t n => blen (fst t) + 3 + n) 3 ts <= vbi_max ->
  exists bs, packet_enc (subscribe_request id ts) = Ok bs /\ blen bs <= max_frame.
Proof.
  intros H. destruct (enc_subscribe id (map (fun t => (fst t, Mk_sub_options (snd t) false false SendRetained)) ts))
    as [bs Hbs]. exists bs. split; [exact Hbs|].
  cbn [packet_enc] in Hbs. destruct (subscribe_framed _ _ Hbs) as (psz & -> & Hp).
  apply frame_small. unfold subscribe_body. subst psz. cbn [sb_packet_id sb_properties sb_payload oenc].
  rewrite !blen_app, blen_u16. change (blen (venc (@blen N []))) with 1. rewrite ?blen_nil.
  rewrite <- (vec_size_spec sub_filter_enc sub_filter_size) by apply blen_sub_filter.
  enough (E : vec_size sub_filter_size (map (fun t => (fst t, Mk_sub_options (snd t) false false SendRetained)) ts)
              + 3 = fold_right (fun t n => blen (fst t) + 3 + n) 3 ts) by lia.
  clear. induction ts as [|[t q] ts IH]; [reflexivity|].
  unfold vec_size in *. cbn [map fold_right fst snd]. rewrite <- IH.
  unfold sub_filter_size, str_size. cbn [fst]. lia.
Qed.

Lemma unsubscribe_sent id ts : fold_right (fun t n => blen t + 2 + n) 3 ts <= vbi_max ->
  exists bs, packet_enc (unsubscribe_request id ts) = Ok bs /\ blen bs <= max_frame.
Proof.
  intros H. destruct (enc_unsubscribe id ts) as [bs Hbs]. exists bs. split; [exact Hbs|].
  cbn [packet_enc] in Hbs. destruct (unsubscribe_framed _ _ Hbs) as (psz & -> & Hp).
  apply frame_small. unfold unsubscribe_body. subst psz. cbn [us_packet_id us_properties us_payload oenc].
  rewrite !blen_app, blen_u16. change (blen (venc (@blen N []))) with 1. rewrite ?blen_nil.
  rewrite <- (vec_size_spec str_enc str_size) by (intros; symmetry; apply blen_str_enc).
  enough (E : vec_size str_size ts + 3 = fold_right (fun t n => blen t + 2 + n) 3 ts) by lia.
  clear. induction ts as [|t ts IH]; [reflexivity|].
  unfold vec_size in *. cbn [fold_right]. rewrite <- IH. unfold str_size. lia.
Qed.

Lemma is_bytes_vbi n : is_bytes (vbi_enc n).
Proof.
  unfold vbi_enc. generalize 5%nat. intros f. revert n. induction f as [|f IH]; intros n; cbn; [constructor|].
  destruct (0 <? n / 128); (constructor; [unfold is_byte; rewrite ?lor_128; lia|]); [apply IH|constructor].
Qed.

Lemma is_bytes_u16 n : n < 65536 -> is_bytes (u16_enc n).
Proof. intros H. constructor; [unfold is_byte; lia|constructor; [unfold is_byte; lia|constructor]]. Qed.

Lemma publish_bytes id t d q r bs : is_bytes t -> is_bytes d -> owf wf_id id ->
  packet_enc (publish_request id t d q r) = Ok bs -> is_bytes bs.
Proof.
  intros Ht Hd Hid H. destruct (publish_framed _ _ H) as (psz & -> & ->).
  unfold publish_body. cbn [pb_topic pb_packet_id pb_properties pb_payload oenc obytes].
  unfold is_bytes in *. rewrite !Forall_app. repeat split; try assumption.
  - constructor; [|constructor]. unfold is_byte, publish_header. destruct q, r; vm_compute; reflexivity.
  - apply is_bytes_vbi.
  - unfold str_enc. rewrite ?Forall_app. repeat split; try assumption. apply is_bytes_u16. unfold two16. lia.
  - destruct id; cbn [opt_enc]; [apply is_bytes_u16, Hid|constructor].
  - apply is_bytes_vbi.
  - constructor.
Qed.

Lemma parsed_topic_len p v bs b r : is_bytes bs ->
  parse_with_version p v bs = Ok (Publish b, r) -> blen (pb_topic b) < 65536.
Proof.
  intros Hb H. destruct bs as [|h tl]; [discriminate|]. cbn [parse_with_version] in H.
  assert (Hp : publish_dec p (h :: tl) = Ok (b, r)).
  { destruct (h / 16) as [|[[[[]|[]|]|[[]|[]|]|]|[[[]|[]|]|[[]|[]|]|]|]]; try discriminate H;
      unfold lift_packet in H;
      repeat match type of H with (if ?x then _ else _) = _ => destruct x | bind (if ?x then _ else _) _ = _ => destruct x end;
      inv_bind H; destruct a as [a r']; inv H; assumption. }
  unfold publish_dec in Hp. inv_bind Hp. destruct a as [h' r1].
  cbn in Ha. inv Ha. inv_bind Hp. destruct a as [rl r2].
  assert (Hr2 : is_bytes r2).
  { pose proof (vbi_safe p r1 ltac:(inv Hb; assumption)) as S. rewrite Ha in S. cbn in S.
    eapply suffix_bytes; [exact S|inv Hb; assumption]. }
  inv_bind Hp. destruct a as [t r3]. apply str_dec_len in Ha0; [|exact Hr2].
  inv_bind Hp. destruct a as [pid r4]. inv_bind Hp. destruct a as [pr r5]. repeat inv_bind Hp.
  repeat case_match; try discriminate; inv Hp; exact Ha0.
Qed.

(** ** The end of the loop *)

Lemma stop_alive e c : cl_alive (report e (stop c)) = false.
Proof. rewrite report_alive. reflexivity. Qed.

Lemma step_end c i c' out : cstep c i = Some (c', out) -> ~ In Panicked out ->
  farewells (reports c i) =
    match i with IRead (RPacket (Disconnect _)) _ => [Disconnected ServerInitiated] | _ => [] end
    ++ (if cl_alive c then if cl_alive c' then [] else reports c i else []) /\
  (cl_alive c = false -> cl_alive c' = false).
Proof.
  intros H Hp. apply cstep_inv in H.
  inversion H; subst; try (match goal with H : idle _ |- _ => destruct H as [Hal Hw] end);
    rewrite ?stop_alive, ?report_alive; cbn [next_id cl_alive stop reports] in *;
    try match goal with H : cl_alive _ = _ |- _ => rewrite H in * end;
    try (split; [reflexivity|tauto]); try (split; [reflexivity|discriminate]).
  - destruct cmd; (split; [reflexivity|tauto]).
  - destruct ok; rewrite ?report_alive, Hal; split; try discriminate;
      destruct (match _ with AtLeastOnce => _ | _ => _ end); reflexivity.
  - destruct (match _ with AtLeastOnce => _ | _ => _ end); (split; [reflexivity|discriminate]).
  - destruct k; try contradiction; (split; [reflexivity|discriminate]).
  - destruct (cl_alive _); split; reflexivity || tauto.
  - destruct (cl_alive _); split; reflexivity || tauto.
Qed.

(** An event waits only when the channel is full. *)
Lemma waiting_full is c outs : cruns client_new is c outs -> ~ In IDrop is ->
  cl_waiting c <> None -> length (cl_queue c) = event_capacity.
Proof.
  intros H Hn. enough (K : (length (cl_queue c) <= event_capacity)%nat /\
    (cl_waiting c <> None -> length (cl_queue c) = event_capacity)) by apply K.
  revert Hn. induction H as [|is c1 outs i c2 out Hr IH Hs]; intros Hn.
  { cbn. split; [unfold event_capacity; lia|congruence]. }
  assert (Hn1 : ~ In IDrop is) by (intros Q; apply Hn, in_or_app; auto).
  destruct (IH Hn1) as [IH1 IH2]. pose proof (not_dropped _ _ _ Hr Hn1) as Hd.
  assert (Hrep : forall e c, cl_dropped c = false -> cl_waiting c = None -> (length (cl_queue c) <= event_capacity)%nat ->
    (length (cl_queue (report e c)) <= event_capacity)%nat /\
    (cl_waiting (report e c) <> None -> length (cl_queue (report e c)) = event_capacity)).
  { intros e c Hd' Hw' Hl. unfold report. rewrite Hd'. destruct (Nat.ltb_spec (length (cl_queue c)) event_capacity); cbn.
    - rewrite app_length, Hw'. cbn. split; [lia|congruence].
    - split; [lia|]. intros _. lia. }
  apply cstep_inv in Hs. inversion Hs; subst; try (split; assumption);
    try (match goal with H : idle _ |- _ => destruct H as [Hal Hw] end);
    try (apply Hrep; assumption); try (cbn; split; assumption).
  - destruct ok; [apply Hrep; assumption|split; assumption].
  - cbn. match goal with H : cl_queue _ = _ |- _ => rewrite H in * end. cbn [length] in *.
    rewrite app_length. destruct (cl_waiting c1) eqn:E; cbn [length] in *.
    + specialize (IH2 ltac:(discriminate)). split; [lia|congruence].
    + split; [lia|congruence].
  - exfalso. apply Hn, in_or_app. right. left. reflexivity.
Qed.

(** Running a history, for examples. *)
Fixpoint crun (c : client) (is : list cinput) : option (client * list coutput) :=
  match is with
  | [] => Some (c, [])
  | i :: is =>
      match cstep c i with
      | Some (c1, o1) => match crun c1 is with Some (c2, o2) => Some (c2, o1 ++ o2) | None => None end
      | None => None
      end
  end.
Lemma crun_from is : forall c0 is0 c outs c' o, cruns c0 is0 c outs -> crun c is = Some (c', o) ->
  cruns c0 (is0 ++ is) c' (outs ++ o).
Proof.
  induction is as [|i is IH]; intros c0 is0 c outs c' o H E; cbn in E.
  - injection E as <- <-. rewrite !app_nil_r. exact H.
  - destruct (cstep c i) as [[c1 o1]|] eqn:E1; [|discriminate].
    destruct (crun c1 is) as [[c2 o2]|] eqn:E2; [|discriminate]. injection E as <- <-.
    replace (is0 ++ i :: is) with ((is0 ++ [i]) ++ is) by (rewrite <- app_assoc; reflexivity).
    rewrite app_assoc. eapply IH; [|exact E2]. eapply cruns_snoc; eauto.
Qed.
Lemma crun_sound c is c' o : crun c is = Some (c', o) -> cruns c is c' o.
Proof. intros H. exact (crun_from is c [] c [] c' o (cruns_nil c) H). Qed.
