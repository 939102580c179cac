(** Properties of the command line client: C79-C81. *)
From Coq Require Import String.
From Verif Require Import Base Utf8 Codec Tac SpecCodec CodecFacts Property SpecProperty PacketProps Packets SpecPackets
  PacketsFacts PacketsRoundtrip Frame FrameFacts Properties_Wire Client SpecClient ClientFacts Properties_Client Str
  SpecTopic TopicFacts Maps Session Server SpecServer Examples Properties_Session Cli SpecCli CliFacts.

(** * C79: `mercurio pub` *)

Lemma parse_qos_iff n q : parse_qos n = Some q <-> qos_number n q.
Proof.
  unfold parse_qos, qos_number. destruct n as [|[[p|p|]|[p|p|]|]]; split; intros H;
    try discriminate; try (injection H as <-; auto);
    try (destruct H as [[H1 H2]|[[H1 H2]|[H1 H2]]]; try discriminate; subst; reflexivity).
Qed.

Lemma publish_setup_runs a t m stdin n r o tl cmd : publish_setup a t m stdin n r = Runs o tl cmd ->
  exists d q, payload_given m stdin d /\ qos_number n q /\ cmd = CmdPublish t d q r /\ o = to_connect_options a.
Proof.
  unfold publish_setup. destruct (match m with Some m => Some m | None => stdin end) as [d|] eqn:Hm; [|discriminate].
  destruct (parse_qos n) as [q|] eqn:Hq; [|discriminate]. intros H. injection H as <- <- <-.
  exists d, q. split; [|split; [apply parse_qos_iff; exact Hq|split; reflexivity]].
  unfold payload_given. destruct m as [m|]; [left; congruence|right; auto].
Qed.
Lemma exited_stays t is p c outs : truns t (Exited false) is p c outs -> p = Exited false /\ outs = [].
Proof. induction 1 as [|? p1 ? ? ? ? ? ? ? IH Hs]; [auto|]. destruct IH as [-> ->]. discriminate. Qed.
Lemma start_asking s ca op answer is t p c outs : truns t (start s ca op answer) is p c outs -> p <> Exited false ->
  exists o tl cmd, s = Runs o tl cmd /\ truns t (Asking cmd) is p c outs.
Proof.
  intros Hr Hp. pose proof (fun is p c outs H => proj1 (exited_stays t is p c outs H)) as Hx.
  destruct s as [|o tl cmd]; cbn [start] in Hr; [apply Hx in Hr; contradiction|].
  destruct (open_transport ca tl); [|apply Hx in Hr; contradiction].
  destruct op; [|apply Hx in Hr; contradiction].
  destruct (perform_connect o answer); try (apply Hx in Hr; contradiction). eauto.
Qed.

Lemma publish_made_says t d q r k : publish_made t d q r k -> says_publish t d q r k.
Proof. intros (id & -> & H). eexists. split; [reflexivity|]. repeat split; apply H. Qed.

(** Exit status 0 means that exactly the PUBLISH asked for was written, once, and then a
    DISCONNECT; nothing else was requested. Missing: that the broker took the message (false,
    below). *)
Theorem C79_success_means_sent_partial a t m stdin n r ca op answer is c outs :
  truns Publisher (start (publish_setup a t m stdin n r) ca op answer) is (Exited true) c outs ->
  exists d q k, payload_given m stdin d /\ qos_number n q /\ says_publish t d q r k /\
    requests (written (net outs)) = [k; Disconnect (Mk_disconnect_packet NormalDisconnection None)].
Proof.
  intros Hr. apply start_asking in Hr; [|discriminate]. destruct Hr as (o & tl & cmd & Hs & Hr).
  apply publish_setup_runs in Hs. destruct Hs as (d & q & Hd & Hq & -> & _).
  apply publisher_run in Hr. destruct Hr as (k & Hk & E). exists d, q, k.
  split; [exact Hd|]. split; [exact Hq|]. split; [apply publish_made_says, Hk|exact E].
Qed.
Print Assumptions C79_success_means_sent_partial.

(** Whatever happens, nothing but this PUBLISH and a DISCONNECT after it is ever requested. *)
Theorem C79_nothing_else_sent a t m stdin n r ca op answer is p c outs :
  truns Publisher (start (publish_setup a t m stdin n r) ca op answer) is p c outs ->
  requests (written (net outs)) = [] \/
  exists d q k, payload_given m stdin d /\ qos_number n q /\ says_publish t d q r k /\
    (requests (written (net outs)) = [k] \/
     requests (written (net outs)) = [k; Disconnect (Mk_disconnect_packet NormalDisconnection None)]).
Proof.
  intros Hr. destruct (publish_setup a t m stdin n r) as [|o tl cmd] eqn:Es.
  { left. apply exited_stays in Hr. destruct Hr as [_ ->]. reflexivity. }
  pose proof (publish_setup_runs _ _ _ _ _ _ _ _ _ Es) as (d & q & Hd & Hq & -> & _).
  assert (Hc : truns Publisher (Asking (CmdPublish t d q r)) is p c outs \/ truns Publisher (Exited false) is p c outs).
  { cbn [start] in Hr. destruct (open_transport ca tl); [|auto]. destruct op; [|auto].
    destruct (perform_connect o answer); auto. }
  destruct Hc as [Hc|Hc].
  - apply publisher_run in Hc. destruct p as [cmd| | |[]]; cbn [publisher_inv] in Hc.
    + left. apply Hc.
    + contradiction.
    + right. destruct Hc as (k & Hk & E). exists d, q, k. pose proof (publish_made_says _ _ _ _ _ Hk). auto.
    + right. destruct Hc as (k & Hk & E). exists d, q, k. pose proof (publish_made_says _ _ _ _ _ Hk). auto.
    + destruct Hc as [E|(k & Hk & E)]; [left; exact E|].
      right. exists d, q, k. pose proof (publish_made_says _ _ _ _ _ Hk). auto.
  - left. apply exited_stays in Hc. destruct Hc as [_ ->]. reflexivity.
Qed.
Print Assumptions C79_nothing_else_sent.

(** A quality of service other than 0, 1 and 2, or unreadable input: nothing is sent. *)
Theorem C79_bad_arguments a t m stdin n r :
  (forall q, ~ qos_number n q) \/ (forall d, ~ payload_given m stdin d) ->
  publish_setup a t m stdin n r = Quits.
Proof.
  intros H. destruct (publish_setup a t m stdin n r) as [|o tl cmd] eqn:E; [reflexivity|].
  apply publish_setup_runs in E. destruct E as (d & q & Hd & Hq & _). destruct H as [H|H]; exfalso; eapply H; eassumption.
Qed.
Print Assumptions C79_bad_arguments.

(** On the wire the PUBLISH is the message, for topics and payloads that fit. *)
Theorem C79_on_wire_partial a t m stdin n r ca op answer is c outs :
  truns Publisher (start (publish_setup a t m stdin n r) ca op answer) is (Exited true) c outs ->
  wf_str t -> (forall d, payload_given m stdin d -> blen t + blen d + 5 <= vbi_max) ->
  exists d q k rest_k bs, payload_given m stdin d /\ qos_number n q /\
    requests (written (net outs)) = k :: rest_k /\ packet_enc k = Ok bs /\
    forall p v rest, exists b, parse_with_version p v (bs ++ rest) = Ok (Publish b, rest) /\
      pb_topic b = t /\ pb_payload b = Some d /\ pb_qos b = q /\ pb_retain b = r.
Proof.
  intros Hr Ht Hl. apply start_asking in Hr; [|discriminate]. destruct Hr as (o & tl & cmd & Hs & Hr).
  apply publish_setup_runs in Hs. destruct Hs as (d & q & Hd & Hq & -> & _).
  destruct (truns_cruns _ _ _ _ _ _ Hr) as (cis & Hc & _).
  apply publisher_run in Hr. destruct Hr as (k & (id & -> & Hid) & E).
  destruct (publish_sent id t d q r (Hl d Hd)) as (bs & Hbs & Hlen).
  exists d, q, (publish_request id t d q r), [disconnect_request], bs.
  split; [exact Hd|]. split; [exact Hq|]. split; [exact E|]. split; [exact Hbs|].
  assert (Hi : match id with Some i => i < 65536 | None => True end).
  { destruct id as [i|]; [|exact I].
    assert (Hin : In i (request_ids (net outs))).
    { unfold request_ids. apply in_flat_map. exists (publish_request (Some i) t d q r). split; [|left; reflexivity].
      assert (Hw : In (publish_request (Some i) t d q r) (written (net outs))).
      { assert (Hin : In (publish_request (Some i) t d q r) (requests (written (net outs)))) by (rewrite E; left; reflexivity).
        unfold requests in Hin. apply filter_In in Hin. apply Hin. }
      unfold written in Hw. apply in_flat_map in Hw. destruct Hw as (x & Hx & Hx2). apply in_flat_map. exists x. split; [exact Hx|].
      destruct x; cbn in *; try contradiction; exact Hx2. }
    apply In_nth_error in Hin. destruct Hin as [j Hj].
    rewrite (proj2 (ids_used _ _ _ Hc) j i Hj). apply N.mod_upper_bound. discriminate. }
  intros p v rest. eexists. split.
  - apply (C08_packets_round_trip_partial p v _ bs rest Hbs Hlen); [|exact I|exact I].
    split; [destruct Hq as [[_ ->]|[[_ ->]|[_ ->]]]; discriminate|]. split; [exact Ht|].
    split; [|exact I]. cbn [pb_qos pb_packet_id]. destruct q, id as [i|]; try exact I; try exact Hi.
    + destruct Hid as [_ Hid]. discriminate (Hid eq_refl).
    + destruct Hid as [Hid _]. discriminate (Hid eq_refl).
    + destruct Hid as [Hid _]. discriminate (Hid eq_refl).
    + destruct Hid as [Hid _]. discriminate (Hid eq_refl).
  - repeat split.
Qed.
Print Assumptions C79_on_wire_partial.

(** The CONNECT both programs send says what the arguments say (the version: C81). *)
Lemma options_of_args a : args_fit a -> options_fit (to_connect_options a).
Proof. intros (H1 & H2 & H3 & H4). repeat split; assumption. Qed.
Theorem C79_connect_from_arguments a t m stdin n r o tl cmd : args_fit a ->
  publish_setup a t m stdin n r = Runs o tl cmd ->
  exists bs, packet_enc (Connect (build_connect o)) = Ok bs /\
    forall p v rest, exists k, parse_with_version p v (bs ++ rest) = Ok (Connect k, rest) /\ connect_of_args a None k.
Proof.
  intros Ha Hs. apply publish_setup_runs in Hs. destruct Hs as (_ & _ & _ & _ & _ & ->).
  destruct (C58_connect_reflects_options _ (options_of_args a Ha)) as (bs & Hbs & Hp).
  exists bs. split; [exact Hbs|]. intros p v rest. destruct (Hp p v rest) as (k & Hk & R). exists k. split; [exact Hk|].
  unfold reflects in R. cbn in R. destruct R as (R1 & R2 & R3 & R4 & R5 & R6 & R7 & R8 & R9 & R10 & R11 & _).
  repeat split; auto.
Qed.
Print Assumptions C79_connect_from_arguments.

Definition ex_args : connection_args :=
  Mk_connection_args (Some (str "me")) None None 60 (str "5") false None false.
Definition ex_connack : option read_out := Some (RPacket (ConnAck (Mk_connack_packet V5 false Success None))).
Definition ex_pub_start (t : string) (q : N) : phase :=
  start (publish_setup ex_args (str t) (Some (str "hello")) None q false) (fun _ => true) true ex_connack.

Example C79_ex : args_fit ex_args /\ exists c outs,
  truns Publisher (ex_pub_start "a/b" 1) [Served true; Served true] (Exited true) c outs.
Proof.
  split.
  - repeat split; cbn; try (apply utf8_valid_iff; vm_compute; reflexivity); try (vm_compute; discriminate); try exact I.
  - eexists _, _. eapply (truns_snoc _ _ [_]); [eapply (truns_snoc _ _ []); [constructor|reflexivity]|reflexivity].
Qed.

(** With quality of service 1 the program succeeds although no PUBACK ever arrives, ... *)
Theorem C79_acknowledged_refuted : exists is c outs,
  truns Publisher (ex_pub_start "a/b" 1) is (Exited true) c outs /\
  forall r ok, ~ In (Arrives r ok) is.
Proof.
  exists [Served true; Served true]. eexists _, _. split.
  - eapply (truns_snoc _ _ [_]); [eapply (truns_snoc _ _ []); [constructor|reflexivity]|reflexivity].
  - intros r ok [H|[H|[]]]; discriminate.
Qed.
Print Assumptions C79_acknowledged_refuted.

(** ... and although the topic is invalid: the broker closes the connection on the PUBLISH
    and publishes nothing, whatever its state. *)
Theorem C79_accepted_refuted : exists is c outs b,
  truns Publisher (ex_pub_start "a/+" 1) is (Exited true) c outs /\ In (Publish b) (written (net outs)) /\
  forall cfg w d i s w' o, serves w d i s -> se_will s = None ->
    step cfg w (EPacket d (Publish b)) = (w', o) -> o = [Closed d] /\ w_broker w' = w_broker w.
Proof.
  exists [Served true; Served true]. eexists _, _. exists (Mk_publish_packet false AtLeastOnce false (str "a/+") (Some 1) None (Some (str "hello"))).
  split; [|split].
  - eapply (truns_snoc _ _ [_]); [eapply (truns_snoc _ _ []); [constructor|reflexivity]|reflexivity].
  - left. reflexivity.
  - intros cfg w d i s w' o Hs Hw H.
    assert (Hu : utf8 (str "a/+")) by (apply utf8_valid_iff; vm_compute; reflexivity).
    assert (Hn : ~ topic_name (str "a/+")) by (rewrite <- publish_topic_iff by exact Hu; vm_compute; discriminate).
    match type of H with step _ _ (EPacket _ (Publish ?x)) = _ => set (b := x) in * end.
    split.
    + destruct (C34_invalid_topic_no_effect cfg w d i s b Hs Hu Hn) as [_ E]. rewrite H in E. exact E.
    + exact (C34_nothing_published cfg w d i s b w' o Hs Hu Hn Hw H).
Qed.
Print Assumptions C79_accepted_refuted.

(** A failure does not mean that nothing was sent: only the DISCONNECT may have failed. *)
Theorem C79_failure_means_unsent_refuted : exists is c outs k,
  truns Publisher (ex_pub_start "a/b" 0) is (Exited false) c outs /\
  requests (written (net outs)) = [k] /\ says_publish (str "a/b") (str "hello") AtMostOnce false k.
Proof.
  exists [Served true; Served false]. eexists _, _, _. split; [|split].
  - eapply (truns_snoc _ _ [_]); [eapply (truns_snoc _ _ []); [constructor|reflexivity]|reflexivity].
  - reflexivity.
  - eexists. split; [reflexivity|]. repeat split.
Qed.
Print Assumptions C79_failure_means_unsent_refuted.

(** * C80: `mercurio sub` *)

Lemma subscribe_setup_runs a ts n wt wm wn wr o tl cmd : subscribe_setup a ts n wt wm wn wr = Runs o tl cmd ->
  exists q, qos_number n q /\ cmd = CmdSubscribe (map (fun t => (t, q)) ts) /\
    match wt with
    | None => o = to_connect_options a
    | Some t => exists wq, qos_number wn wq /\
        o = with_will (to_connect_options a) (Mk_will_options t (match wm with Some m => m | None => [] end) wq wr)
    end.
Proof.
  unfold subscribe_setup. destruct (parse_qos n) as [q|] eqn:Hq; [|discriminate]. apply parse_qos_iff in Hq.
  destruct wt as [t|].
  - destruct (parse_qos wn) as [wq|] eqn:Hw; [|discriminate]. apply parse_qos_iff in Hw.
    intros H. injection H as <- <- <-. exists q. repeat split; try assumption. exists wq. split; [exact Hw|reflexivity].
  - intros H. injection H as <- <- <-. exists q. repeat split; assumption.
Qed.

(** The messages printed are among those that arrived. *)
Lemma shown_messages pt es : flat_map (shown pt) es = flat_map (shown pt) (messages es).
Proof. induction es as [|[] es IH]; cbn; [reflexivity|f_equal; exact IH|exact IH]. Qed.
Lemma shown_map pt bs : flat_map (shown pt) (map SpecClient.message_of bs) = map (fun b => message_line pt (pb_topic b) (payload_of b)) bs.
Proof. induction bs as [|b bs IH]; [reflexivity|]. cbn. f_equal. exact IH. Qed.

Lemma told_kept pt ts is p c outs : truns (Subscriber pt) (Asking (CmdSubscribe ts)) is p c outs ->
  messages (told c (net outs)) = map SpecClient.message_of (kept is).
Proof.
  intros Hr. destruct (truns_cruns _ _ _ _ _ _ Hr) as (cis & Hc & Hn & Hp & _).
  rewrite (proj1 (C59_lost_only_unacknowledged _ _ _ Hc Hn)), Hp. reflexivity.
Qed.

Lemma firstn_app_exact {A} (l r : list A) : firstn (List.length l) (l ++ r) = l.
Proof. induction l; [reflexivity|cbn; f_equal; assumption]. Qed.

Lemma line_ok pt bs : Forall (fun b => utf8 (payload_of b)) bs ->
  Forall2 (line_for pt) bs (map (fun b => message_line pt (pb_topic b) (payload_of b)) bs).
Proof.
  induction 1 as [|b bs Hb _ IH]; [constructor|]. cbn [map]. constructor; [|exact IH].
  unfold line_for, message_line. apply lossy_same in Hb. rewrite Hb. destruct pt; reflexivity.
Qed.

(** At any moment the lines printed are those of the first messages that arrived, in their
    order, each once; messages of quality of service 1 whose PUBACK could not be written are
    left out. The payloads must be UTF-8. *)
Theorem C80_prints_in_order_partial a ts n pt wt wm wn wr ca op answer is p c outs :
  truns (Subscriber pt) (start (subscribe_setup a ts n wt wm wn wr) ca op answer) is p c outs ->
  Forall (fun b => utf8 (payload_of b)) (kept is) ->
  exists m, Forall2 (line_for pt) (firstn m (kept is)) (stdout outs).
Proof.
  intros Hr Hu.
  assert (Hp : stdout outs = [] \/ p <> Exited false).
  { destruct p as [| | |[]]; try (right; discriminate). left.
    destruct (subscribe_setup a ts n wt wm wn wr) as [|o tl cmd] eqn:Es; cbn [start] in Hr.
    - apply exited_stays in Hr. destruct Hr as [_ ->]. reflexivity.
    - apply subscribe_setup_runs in Es. destruct Es as (q & _ & -> & _).
      destruct (open_transport ca tl); [|apply exited_stays in Hr; destruct Hr as [_ ->]; reflexivity].
      destruct op; [|apply exited_stays in Hr; destruct Hr as [_ ->]; reflexivity].
      destruct (perform_connect o answer); try (apply exited_stays in Hr; destruct Hr as [_ ->]; reflexivity).
      destruct (subscriber_run _ _ _ _ _ _ Hr) as (H1 & H2 & _). cbn in H1. rewrite H2, H1. reflexivity. }
  destruct Hp as [Hp|Hp]; [exists O; rewrite Hp; constructor|].
  apply start_asking in Hr; [|exact Hp]. destruct Hr as (o & tl & cmd & Es & Hr).
  apply subscribe_setup_runs in Es. destruct Es as (q & _ & -> & _).
  destruct (subscriber_run _ _ _ _ _ _ Hr) as (_ & H2 & _). pose proof (told_kept _ _ _ _ _ _ Hr) as Ht.
  assert (E : exists m, firstn m (map SpecClient.message_of (kept is)) = messages (received (net outs))).
  { exists (List.length (messages (received (net outs)))). rewrite <- Ht. unfold told. rewrite messages_app. apply firstn_app_exact. }
  destruct E as [m E]. exists m. rewrite H2, shown_messages, <- E, firstn_map, shown_map.
  apply line_ok. apply Forall_forall. intros b Hb. rewrite Forall_forall in Hu. apply Hu.
  rewrite <- (firstn_skipn m (kept is)). apply in_or_app. left. exact Hb.
Qed.
Print Assumptions C80_prints_in_order_partial.

(** When the program ends by itself (no Ctrl-C, no DISCONNECT from the broker) after having
    subscribed, it has printed all of them. *)
Theorem C80_prints_all_partial a ts n pt wt wm wn wr ca op answer is c outs :
  truns (Subscriber pt) (start (subscribe_setup a ts n wt wm wn wr) ca op answer) is (Exited true) c outs ->
  ~ In Interrupt is -> disconnects_arrived is = [] ->
  Forall (fun b => utf8 (payload_of b)) (kept is) ->
  Forall2 (line_for pt) (kept is) (stdout outs).
Proof.
  intros Hr Hi Hd Hu. apply start_asking in Hr; [|discriminate]. destruct Hr as (o & tl & cmd & Es & Hr).
  apply subscribe_setup_runs in Es. destruct Es as (q & _ & -> & _).
  destruct (subscriber_run _ _ _ _ _ _ Hr) as (H1 & H2 & _). pose proof (told_kept _ _ _ _ _ _ Hr) as Ht.
  destruct (truns_cruns _ _ _ _ _ _ Hr) as (cis & Hc & Hn & _ & Hcd). rewrite Hd in Hcd.
  assert (E : messages (received (net outs)) = messages (told c (net outs))).
  { cbn [subscriber_inv] in H1. destruct H1 as [H1|[H1|(Q1 & _ & Q3)]]; [contradiction| |].
    - destruct (farewell_last _ _ _ Hc Hn Hcd) as [F|(_ & es & r & F & Fe)].
      + exfalso. apply H1. unfold told in F. rewrite farewells_app in F. apply app_eq_nil in F. apply F.
      + rewrite told_pending in *.
        destruct (pending c) as [|x pd _] eqn:Ep using rev_ind; [rewrite app_nil_r; reflexivity|].
        exfalso. apply H1. rewrite app_assoc in F. apply app_inj_tail in F. destruct F as [F _].
        rewrite <- F, farewells_app in Fe. apply app_eq_nil in Fe. apply Fe.
    - unfold told. rewrite Q1, Q3, app_nil_r. reflexivity. }
  rewrite H2, shown_messages, E, Ht, shown_map. apply line_ok. exact Hu.
Qed.
Print Assumptions C80_prints_all_partial.

(** What was asked of the broker: one SUBSCRIBE for the topics given, at the quality of
    service given, and at most a DISCONNECT after it. *)
Theorem C80_subscribes a ts n pt wt wm wn wr ca op answer is p c outs :
  truns (Subscriber pt) (start (subscribe_setup a ts n wt wm wn wr) ca op answer) is p c outs ->
  p = Listening \/ p = Leaving \/ p = Exited true ->
  exists q s tail, qos_number n q /\ requests (written (net outs)) = Subscribe s :: tail /\
    map fst (sb_payload s) = ts /\ Forall (fun f => so_qos (snd f) = q) (sb_payload s) /\
    (tail = [] \/ tail = [Disconnect (Mk_disconnect_packet NormalDisconnection None)]).
Proof.
  intros Hr Hp. apply start_asking in Hr; [|destruct Hp as [->|[->| ->]]; discriminate].
  destruct Hr as (o & tl & cmd & Es & Hr). apply subscribe_setup_runs in Es. destruct Es as (q & Hq & -> & _).
  set (ts' := map (fun t => (t, q)) ts) in *.
  assert (K : match p with
              | Asking _ => requests (written (net outs)) = []
              | Listening | Leaving => exists id, requests (written (net outs)) = [subscribe_request id ts']
              | Exited true => exists id tail, requests (written (net outs)) = subscribe_request id ts' :: tail /\
                  (tail = [] \/ tail = [disconnect_request])
              | Exited false => True
              end).
  { clear Hp. induction Hr as [|is p1 c1 outs i p2 c2 out Hr IH Hs]; [reflexivity|].
    destruct (subscriber_run _ _ _ _ _ _ Hr) as (_ & _ & Hcmd).
    rewrite net_app, written_app, requests_app. apply tstep_inv in Hs. inversion Hs; subst.
    - rewrite net_map, (background_requests _ _ _ _ H0), app_nil_r by exact I. exact IH.
    - rewrite net_map, (background_requests _ _ _ _ H0), app_nil_r by exact I. exact IH.
    - rewrite IH, net_map. rewrite (Hcmd _ eq_refl) in H. unfold after_first.
      destruct (answered_ok out0) eqn:Ea; [|exact I]. apply cstep_inv in H. inversion H; subst.
      + destruct ok; [|discriminate]. eexists. reflexivity.
      + discriminate.
    - destruct IH as [id IH]. rewrite IH, net_map, (disconnect_call _ _ _ _ H). cbn [after_last].
      exists id. destruct (answered_ok out0); eexists; split; [reflexivity|right; reflexivity|reflexivity|left; reflexivity].
    - rewrite net_app, net_map, net_take, app_nil_r, (background_requests _ _ _ _ H0), app_nil_r by exact I.
      destruct out0 as [|[] [|]]; cbn [take fst]; try exact IH; destruct e as [[]|]; exact IH.
    - rewrite app_nil_r. exact IH. }
  assert (Hid : exists id tail, requests (written (net outs)) = subscribe_request id ts' :: tail /\ (tail = [] \/ tail = [disconnect_request])).
  { destruct Hp as [->|[->| ->]]; [destruct K as [id K]; eauto|destruct K as [id K]; eauto|exact K]. }
  destruct Hid as (id & tail & E & Ht). exists q. eexists _, tail. split; [exact Hq|]. split; [exact E|].
  cbn [sb_payload]. subst ts'. rewrite !map_map. cbn [fst snd]. split; [apply map_id|]. split; [|exact Ht].
  apply Forall_forall. intros f Hf. apply in_map_iff in Hf. destruct Hf as (t & <- & _). reflexivity.
Qed.
Print Assumptions C80_subscribes.

(** The CONNECT of `mercurio sub`, with the will asked for. *)
Theorem C80_connect_from_arguments a ts n wt wm wn wr o tl cmd : args_fit a ->
  owf wf_str wt -> owf wf_bin wm ->
  subscribe_setup a ts n wt wm wn wr = Runs o tl cmd ->
  exists bs w, packet_enc (Connect (build_connect o)) = Ok bs /\
    match wt with
    | Some t => exists wq, qos_number wn wq /\ w = Some (t, match wm with Some m => m | None => [] end, wq, wr)
    | None => w = None
    end /\
    forall p v rest, exists k, parse_with_version p v (bs ++ rest) = Ok (Connect k, rest) /\ connect_of_args a w k.
Proof.
  intros Ha Hwt Hwm Hs. apply subscribe_setup_runs in Hs. destruct Hs as (q & _ & _ & Ho).
  assert (Hf : options_fit o).
  { destruct wt as [t|]; [|subst o; apply options_of_args; exact Ha].
    destruct Ho as (wq & Hwq & ->). destruct Ha as (A1 & A2 & A3 & A4).
    split; [exact A1|]. split; [exact A2|]. split; [exact A3|]. split; [exact A4|]. cbn.
    split; [exact Hwt|]. split.
    - destruct wm as [m|]; [exact Hwm|]. repeat split; try constructor; vm_compute; discriminate.
    - destruct Hwq as [[_ ->]|[[_ ->]|[_ ->]]]; discriminate. }
  destruct (C58_connect_reflects_options _ Hf) as (bs & Hbs & Hp).
  destruct wt as [t|].
  - destruct Ho as (wq & Hwq & ->). exists bs, (Some (t, match wm with Some m => m | None => [] end, wq, wr)).
    split; [exact Hbs|]. split; [eauto|]. intros p v rest. destruct (Hp p v rest) as (k & Hk & R). exists k. split; [exact Hk|].
    unfold reflects in R. cbn in R. destruct R as (R1 & R2 & R3 & R4 & R5 & R6 & R7 & R8 & R9 & R10 & R11 & R12 & R13 & R14).
    repeat split; auto.
  - subst o. exists bs, None. split; [exact Hbs|]. split; [reflexivity|]. intros p v rest.
    destruct (Hp p v rest) as (k & Hk & R). exists k. split; [exact Hk|].
    unfold reflects in R. cbn in R. destruct R as (R1 & R2 & R3 & R4 & R5 & R6 & R7 & R8 & R9 & R10 & R11 & _).
    repeat split; auto.
Qed.
Print Assumptions C80_connect_from_arguments.

Definition ex_sub_start : phase :=
  start (subscribe_setup ex_args [str "a/#"] 1 (Some (str "w")) None 0 false) (fun _ => true) true ex_connack.
Definition ex_arrives (t d : bytes) : tinput :=
  Arrives (RPacket (Publish (Mk_publish_packet false AtMostOnce false t None None (Some d)))) true.
Definition ex_sub_run : list tinput :=
  [Served true; ex_arrives (str "a/b") (str "one"); Takes; ex_arrives (str "a") (str "two"); Arrives RClosed true; Takes; Takes; Served true].
(** Runs by evaluation. *)
Fixpoint texec (t : tool) (q : phase) (c : client) (is : list tinput) : option (phase * client * list toutput) :=
  match is with
  | [] => Some (q, c, [])
  | i :: is =>
      match tstep t q c i with
      | Some (q, c, o) => match texec t q c is with Some (q, c, o2) => Some (q, c, o ++ o2) | None => None end
      | None => None
      end
  end.
Lemma texec_truns t p is2 : forall is q c outs, truns t p is q c outs -> forall q2 c2 out2,
  texec t q c is2 = Some (q2, c2, out2) -> truns t p (is ++ is2) q2 c2 (outs ++ out2).
Proof.
  induction is2 as [|i is2 IH]; intros is q c outs H q2 c2 out2 E; cbn [texec] in E.
  - injection E as <- <- <-. rewrite !app_nil_r. exact H.
  - destruct (tstep t q c i) as [[[q1 c1] o1]|] eqn:Es; [|discriminate].
    specialize (IH (is ++ [i]) q1 c1 (outs ++ o1) (truns_snoc _ _ _ _ _ _ _ _ _ _ H Es)).
    destruct (texec t q1 c1 is2) as [[[q3 c3] o3]|]; [|discriminate].
    injection E as <- <- <-. specialize (IH _ _ _ eq_refl). rewrite <- !app_assoc in IH. exact IH.
Qed.
Lemma sub_runs t p is q2 c2 out2 : texec t p client_new is = Some (q2, c2, out2) -> truns t p is q2 c2 out2.
Proof. exact (texec_truns t p is [] p client_new [] (truns_nil _ _) q2 c2 out2). Qed.

Example C80_ex : exists c outs,
  truns (Subscriber true) ex_sub_start ex_sub_run (Exited true) c outs /\ ~ In Interrupt ex_sub_run /\
  disconnects_arrived ex_sub_run = [] /\ List.length (kept ex_sub_run) = 2%nat /\
  Forall (fun b => utf8 (payload_of b)) (kept ex_sub_run) /\
  stdout outs = [str "a/b: one" ++ [10]; str "a: two" ++ [10]].
Proof.
  eexists _, _. split; [apply sub_runs; vm_compute; reflexivity|].
  split; [cbv; intuition discriminate|]. split; [reflexivity|]. split; [reflexivity|]. split; [|reflexivity].
  repeat (apply Forall_cons || apply Forall_nil); apply utf8_valid_iff; vm_compute; reflexivity.
Qed.

(** A payload is printed as it is exactly if it is UTF-8; other payloads are changed, and
    different messages print the same. *)
Theorem C80_payload_exact_iff t d l : l = message_line false t d -> (l = d ++ [10] <-> utf8 d).
Proof.
  intros ->. unfold message_line. rewrite <- lossy_same. split; [|intros ->; reflexivity].
  intros H. apply app_inj_tail in H. apply H.
Qed.
Print Assumptions C80_payload_exact_iff.

Theorem C80_payload_refuted : exists d1 d2 c1 c2 o1 o2, d1 <> d2 /\
  truns (Subscriber true) ex_sub_start [Served true; ex_arrives (str "a") d1; Takes] Listening c1 o1 /\
  truns (Subscriber true) ex_sub_start [Served true; ex_arrives (str "a") d2; Takes] Listening c2 o2 /\
  stdout o1 = stdout o2.
Proof.
  exists [255], [254]. eexists _, _, _, _. split; [discriminate|].
  split; [apply sub_runs; vm_compute; reflexivity|]. split; [apply sub_runs; vm_compute; reflexivity|]. reflexivity.
Qed.
Print Assumptions C80_payload_refuted.

(** Line ends are not quoted: one message can look like two, even with the topics printed. *)
Theorem C80_one_line_per_message_refuted : exists is1 is2 c1 c2 o1 o2,
  truns (Subscriber true) ex_sub_start is1 Listening c1 o1 /\ truns (Subscriber true) ex_sub_start is2 Listening c2 o2 /\
  concat (stdout o1) = concat (stdout o2) /\ List.length (kept is1) = 1%nat /\ List.length (kept is2) = 2%nat.
Proof.
  exists [Served true; ex_arrives (str "a") (str "x" ++ [10] ++ str "b: y"); Takes],
    [Served true; ex_arrives (str "a") (str "x"); Takes; ex_arrives (str "b") (str "y"); Takes].
  eexists _, _, _, _.
  split; [apply sub_runs; vm_compute; reflexivity|]. split; [apply sub_runs; vm_compute; reflexivity|].
  split; [reflexivity|]. split; reflexivity.
Qed.
Print Assumptions C80_one_line_per_message_refuted.

(** The program goes on as if subscribed when the broker refuses the subscription, and it
    reports success when the connection is lost. *)
Theorem C80_refused_subscription_refuted : exists is c outs s,
  truns (Subscriber false) ex_sub_start is Listening c outs /\
  is = [Served true; Arrives (RPacket (SubAck s)) true] /\ sa_payload s = [NotAuthorized].
Proof.
  exists [Served true; Arrives (RPacket (SubAck (Mk_suback_packet V5 1 None [NotAuthorized]))) true].
  eexists _, _, (Mk_suback_packet V5 1 None [NotAuthorized]).
  split; [apply sub_runs; vm_compute; reflexivity|]. split; reflexivity.
Qed.
Print Assumptions C80_refused_subscription_refuted.
Theorem C80_lost_connection_refuted : exists c outs,
  truns (Subscriber false) ex_sub_start [Served true; Arrives (RError EIo) true; Takes; Served true] (Exited true) c outs /\
  received (net outs) = [Disconnected ConnectionLost].
Proof. eexists _, _. split; [apply sub_runs; vm_compute; reflexivity|]. reflexivity. Qed.
Print Assumptions C80_lost_connection_refuted.

(** * C81: transport and protocol version *)

(** With --tls and without --insecure nothing is sent unless the server is authenticated by
    the CA file given, or by the built-in roots if none is given. *)
Theorem C81_tls_protects_partial ca a t : ar_tls a = true -> ar_insecure a = false ->
  open_transport ca (to_tls_options a) = Some t ->
  protected t /\ (forall p, t = TlsCa p <-> ar_cafile a = Some p).
Proof.
  intros Ht Hi. unfold open_transport, to_tls_options. cbn. rewrite Ht, Hi.
  destruct (ar_cafile a) as [p|]; [destruct (ca p); [|discriminate]|]; intros H; injection H as <-; (split; [exact I|]);
    intros p0; split; congruence.
Qed.
Print Assumptions C81_tls_protects_partial.
(** With --tls and --insecure any server will do, whatever --cafile says: the connection is
    encrypted, and a CA file that does not load is no error. *)
Theorem C81_insecure_takes_anyone ca a : ar_tls a = true -> ar_insecure a = true ->
  open_transport ca (to_tls_options a) = Some TlsAnyone.
Proof. intros Ht Hi. unfold open_transport, to_tls_options. cbn. rewrite Ht, Hi. reflexivity. Qed.
Print Assumptions C81_insecure_takes_anyone.
(** And with --tls a connection is never plain. *)
Theorem C81_tls_never_plain ca a : ar_tls a = true -> open_transport ca (to_tls_options a) <> Some Plain.
Proof.
  intros Ht. unfold open_transport, to_tls_options. cbn. rewrite Ht. destruct (ar_insecure a), (ar_cafile a) as [p|]; try discriminate.
  destruct (ca p); discriminate.
Qed.
Print Assumptions C81_tls_never_plain.
Example C81_insecure_ex : let a := Mk_connection_args None None None 60 (str "5") true (Some (str "ca.pem")) true in
  ar_tls a = true /\ ar_insecure a = true /\ open_transport (fun _ => false) (to_tls_options a) = Some TlsAnyone.
Proof. repeat split. Qed.
(** Both programs use this choice. *)
Theorem C81_programs_use_it s a o tl cmd :
  (exists t m i n r, s = publish_setup a t m i n r) \/ (exists ts n wt wm wn wr, s = subscribe_setup a ts n wt wm wn wr) ->
  s = Runs o tl cmd -> tl_enabled tl = ar_tls a /\ tl_ca_path tl = ar_cafile a /\ tl_skip_verify tl = ar_insecure a
    /\ op_version o = parse_version (ar_version a).
Proof.
  intros [(t & m & i & n & r & ->)|(ts & n & wt & wm & wn & wr & ->)] H.
  - unfold publish_setup in H. destruct (match m with Some m => Some m | None => i end); [|discriminate].
    destruct (parse_qos n); [|discriminate]. injection H as <- <- _. repeat split.
  - unfold subscribe_setup in H. destruct (parse_qos n); [|discriminate].
    destruct wt; [destruct (parse_qos wn); [|discriminate]|]; injection H as <- <- _; repeat split.
Qed.
Print Assumptions C81_programs_use_it.
Definition ex_ca_args : connection_args :=
  Mk_connection_args (Some (str "me")) (Some (str "user")) (Some (str "secret")) 60 (str "5") false (Some (str "ca.pem")) false.
Definition ex_tls_args : connection_args :=
  Mk_connection_args (Some (str "me")) (Some (str "user")) (Some (str "secret")) 60 (str "5") true (Some (str "ca.pem")) false.
Example C81_ex : open_transport (fun _ => true) (to_tls_options ex_tls_args) = Some (TlsCa (str "ca.pem")).
Proof. reflexivity. Qed.

(** A CA file without --tls is ignored: the password goes over a plain connection. *)
Theorem C81_cafile_protects_refuted : exists a p, ar_cafile a = Some p /\ ar_insecure a = false /\
  ar_password a <> None /\ open_transport (fun _ => false) (to_tls_options a) = Some Plain.
Proof. exists ex_ca_args. eexists. repeat split. discriminate. Qed.
Print Assumptions C81_cafile_protects_refuted.

(** The versions named in the help text select themselves. *)
Theorem C81_version_partial a v : version_name (ar_version a) v -> op_version (to_connect_options a) = v.
Proof. unfold version_name. cbn. intros [[-> ->]|[[-> ->]|[-> ->]]]; reflexivity. Qed.
Print Assumptions C81_version_partial.
(** Anything else silently selects version 5: "4" (the number 3.1.1 has on the wire), "3.11". *)
Theorem C81_version_refuted : exists a b, (forall v, ~ version_name (ar_version a) v) /\ op_version (to_connect_options a) = V5 /\
  ar_version b = str "V311" /\ op_version (to_connect_options b) = V5.
Proof.
  exists (Mk_connection_args None None None 60 (str "4") false None false), (Mk_connection_args None None None 60 (str "V311") false None false).
  split; [|repeat split]. intros v [[H _]|[[H _]|[H _]]]; discriminate.
Qed.
Print Assumptions C81_version_refuted.
