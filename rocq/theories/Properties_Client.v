(** Properties of the client library: C57-C60, C66-C72. *)
From Coq Require Import String.
From Verif Require Import Base Utf8 Codec Tac SpecCodec CodecFacts Property SpecProperty PacketProps Packets SpecPackets
  PacketsFacts PacketsRoundtrip Frame FrameFacts Properties_Wire Client SpecClient ClientFacts Str.

(** * C57: packet identifiers *)

(** The [i]-th request (counting from 0) uses identifier [i + 1] modulo 65536. *)
Theorem C57_identifiers_partial is c outs i id :
  cruns client_new is c outs -> nth_error (request_ids outs) i = Some id ->
  id = (N.of_nat i + 1) mod 65536.
Proof. intros H. exact (proj2 (ids_used _ _ _ H) i id). Qed.
Print Assumptions C57_identifiers_partial.

(** Two requests fewer than 65536 apart never share an identifier. *)
Theorem C57_no_early_reuse is c outs i j a b :
  cruns client_new is c outs ->
  nth_error (request_ids outs) i = Some a -> nth_error (request_ids outs) j = Some b ->
  (i < j)%nat -> N.of_nat j - N.of_nat i < 65536 -> a <> b.
Proof.
  intros H Ha Hb Hij Hd E. apply (C57_identifiers_partial _ _ _ _ _ H) in Ha, Hb.
  assert (Em : (N.of_nat i + 1) mod 65536 = (N.of_nat j + 1) mod 65536) by congruence.
  pose proof (N.div_mod (N.of_nat i + 1) 65536 ltac:(discriminate)) as D1.
  pose proof (N.div_mod (N.of_nat j + 1) 65536 ltac:(discriminate)) as D2.
  rewrite <- Em in D2. nia.
Qed.
Print Assumptions C57_no_early_reuse.

(** None of the first 65535 requests uses 0. *)
Theorem C57_nonzero_at_first is c outs i id :
  cruns client_new is c outs -> nth_error (request_ids outs) i = Some id -> N.of_nat i < 65535 ->
  0 < id.
Proof.
  intros H Hi Hl. rewrite (C57_identifiers_partial _ _ _ _ _ H Hi).
  rewrite N.mod_small by lia. lia.
Qed.
Print Assumptions C57_nonzero_at_first.

(** Any number of requests can be made. *)
Lemma many_requests n : exists c outs,
  cruns client_new (repeat (ICommand (CmdUnsubscribe [str "a"%string]) true) n) c outs /\
  length (request_ids outs) = n /\ cl_alive c = true /\ cl_waiting c = None /\ cl_dropped c = false.
Proof.
  induction n as [|n (c & outs & Hr & Hn & Ha & Hw & Hd)].
  - exists client_new, []. repeat split; try reflexivity. constructor.
  - exists (next_id c), (outs ++ outcome true (unsubscribe_request (cl_next c) [str "a"%string]) tt Unsubscribed).
    replace (S n) with (n + 1)%nat by lia. rewrite repeat_app. cbn [repeat].
    split; [|split; [|split; [|split]]].
    + eapply cruns_snoc; [exact Hr|]. cbn [cstep]. rewrite Hd, Hw, Ha. reflexivity.
    + rewrite request_ids_app, app_length, Hn. reflexivity.
    + exact Ha.
    + exact Hw.
    + exact Hd.
Qed.

(** The 65536th request uses identifier 0, which MQTT forbids. *)
Theorem C57_identifier_zero_refuted : exists is c outs,
  cruns client_new is c outs /\ In 0 (request_ids outs).
Proof.
  destruct (many_requests (N.to_nat 65536)) as (c & outs & Hr & Hn & _).
  eexists _, c, outs. split; [exact Hr|].
  destruct (nth_error (request_ids outs) (N.to_nat 65535)) as [id|] eqn:E.
  2:{ apply nth_error_None in E. rewrite Hn in E. lia. }
  pose proof (C57_identifiers_partial _ _ _ _ _ Hr E) as Q.
  apply nth_error_In in E. subst id. rewrite N2Nat.id in E. exact E.
Qed.
Print Assumptions C57_identifier_zero_refuted.

(** * C58: CONNECT reflects the options *)

Theorem C58_connect_reflects_options o : options_fit o ->
  exists bs, packet_enc (Connect (build_connect o)) = Ok bs /\
  forall p v rest, exists c,
    parse_with_version p v (bs ++ rest) = Ok (Connect c, rest) /\ reflects o c.
Proof.
  intros H. destruct (connect_sent o H) as (bs & Hbs & Hlen & Hwf).
  exists bs. split; [exact Hbs|]. intros p v rest.
  exists (canon_connect (build_connect o)). split.
  - apply (C08_packets_round_trip_partial p v _ bs rest Hbs Hlen Hwf); exact I.
  - unfold reflects, canon_connect, build_connect. cbn.
    repeat split; try (destruct (op_username o); cbn; congruence);
      try (destruct (op_password o); cbn; congruence).
    + intros i ->. reflexivity.
    + intros ->. reflexivity.
    + destruct (op_will o) as [w|]; cbn; repeat split.
Qed.
Print Assumptions C58_connect_reflects_options.

Definition ex_client_options : connect_options :=
  Mk_connect_options (Some (str "me"%string)) (Some (str "user"%string)) (Some (str "secret"%string)) 30 false
    (Some (Mk_will_options (str "last"%string) (str "words"%string) ExactlyOnce true)) V3_1_1.
Example C58_ex : options_fit ex_client_options /\ options_fit options_new.
Proof.
  split; unfold options_fit, wf_str, wf_bin; cbn;
    repeat split; try (apply utf8_valid_iff; vm_compute; reflexivity);
    try (vm_compute; discriminate); try (repeat constructor).
Qed.

(** * C59: received messages are acknowledged and reported *)

(** On a connection whose writes succeed: every PUBLISH read is reported exactly once and
    in order, and every QoS 1 PUBLISH is acknowledged with its identifier. QoS 2 is
    missing (below). *)
Theorem C59_qos1_acknowledged_partial is c outs :
  cruns client_new is c outs -> ~ In IDrop is -> healthy is ->
  messages (told c outs) = map message_of (map fst (publishes_read is)) /\
  pubacks outs = flat_map puback_due (map fst (publishes_read is)).
Proof.
  intros H Hn Hh. destruct (publishes_told _ _ _ H Hn) as [H1 H2]. rewrite H1, H2.
  assert (Hok : Forall (fun x => snd x = true) (publishes_read is)).
  { unfold publishes_read. apply Forall_forall. intros x Hx. apply in_flat_map in Hx.
    destruct Hx as (i & Hi & Hx). specialize (Hh i Hi).
    destruct i as [[[]| | |]| | | |]; try contradiction.
    destruct Hx as [<-|[]]. exact Hh. }
  clear -Hok. induction Hok as [|[b ok] l Hb Hl [IH1 IH2]]; [split; reflexivity|].
  cbn in Hb. subst ok. cbn [filter map fst snd flat_map].
  replace (is_nil (puback_due b) || true) with true by (destruct (puback_due b); reflexivity).
  cbn [map flat_map fst]. rewrite IH1, IH2. split; reflexivity.
Qed.
Print Assumptions C59_qos1_acknowledged_partial.

(** Whatever the writes do: a message is left out only when its PUBACK could not be
    written, and then it is not acknowledged either. *)
Theorem C59_lost_only_unacknowledged is c outs :
  cruns client_new is c outs -> ~ In IDrop is ->
  messages (told c outs) =
    map message_of (map fst (filter (fun x => is_nil (puback_due (fst x)) || snd x) (publishes_read is))) /\
  pubacks outs =
    flat_map (fun x : publish_packet * bool => if snd x then puback_due (fst x) else []) (publishes_read is).
Proof. exact (publishes_told is c outs). Qed.
Print Assumptions C59_lost_only_unacknowledged.

(** QoS 2 messages are never acknowledged: the client never even tries to write a PUBREC
    or PUBCOMP. *)
Theorem C59_qos2_never_acknowledged is c outs k :
  cruns client_new is c outs -> In k (attempted outs) ->
  match k with PubRec _ | PubComp _ | PubRel _ => False | _ => True end.
Proof.
  induction 1 as [|is c1 outs i c2 out Hr IH Hs]; [contradiction|].
  rewrite attempted_app. intros Hk. apply in_app_or in Hk. destruct Hk as [Hk|Hk]; [exact (IH Hk)|].
  apply cstep_inv in Hs. inversion Hs; subst; rewrite ?outcome_attempted in Hk; cbn in Hk;
    try contradiction; try (destruct Hk as [<-|[]]; exact I).
  destruct ok; cbn in Hk; destruct Hk as [<-|[]]; exact I.
Qed.
Print Assumptions C59_qos2_never_acknowledged.

Definition ex_qos2 (dup : bool) : publish_packet :=
  Mk_publish_packet dup ExactlyOnce false (str "t"%string) (Some 7) None (Some (str "hi"%string)).
Definition ex_qos1 (id : N) : publish_packet :=
  Mk_publish_packet false AtLeastOnce false (str "t"%string) (Some id) None (Some (str "hi"%string)).

(** The broker therefore sends it again, and the application gets it a second time. *)
Theorem C59_acknowledged_once_refuted : exists is c outs,
  cruns client_new is c outs /\ healthy is /\
  is = [IRead (RPacket (Publish (ex_qos2 false))) true; IRead (RPacket (Publish (ex_qos2 true))) true] /\
  attempted outs = [] /\ told c outs = [message_of (ex_qos2 false); message_of (ex_qos2 false)].
Proof.
  eexists _, _, _. split; [|split; [|split; [reflexivity|]]].
  - eapply (cruns_snoc _ [_]); [eapply (cruns_snoc _ []); [constructor|reflexivity]|reflexivity].
  - intros i [<-|[<-|[]]]; reflexivity.
  - split; reflexivity.
Qed.
Print Assumptions C59_acknowledged_once_refuted.

Example C59_ex : exists is c outs, cruns client_new is c outs /\ ~ In IDrop is /\ healthy is /\
  map fst (publishes_read is) = [ex_qos1 3; ex_qos2 false; ex_qos1 4] /\ pubacks outs = [3; 4].
Proof.
  exists [IRead (RPacket (Publish (ex_qos1 3))) true; IRead (RPacket (Publish (ex_qos2 false))) true;
          IRead (RPacket (Publish (ex_qos1 4))) true].
  eexists _, _. split; [|split; [|split; [|split]]].
  - eapply (cruns_snoc _ [_; _]); [eapply (cruns_snoc _ [_]); [eapply (cruns_snoc _ []); [constructor|reflexivity]|reflexivity]|reflexivity].
  - intros [E|[E|[E|[]]]]; discriminate.
  - intros i [<-|[<-|[<-|[]]]]; reflexivity.
  - reflexivity.
  - reflexivity.
Qed.

(** * C60: the result of subscribe() *)

(** Success only means that a SUBSCRIBE with these filters was written. *)
Theorem C60_success_means_sent_partial is c outs rs :
  cruns client_new is c outs -> In (Subscribed (COk rs)) (answers outs) ->
  exists s, In (Subscribe s) (written outs) /\
    map (fun f => (fst f, so_qos (snd f))) (sb_payload s) = map (fun r => (sr_topic r, sr_qos r)) rs.
Proof.
  induction 1 as [|is c1 outs i c2 out Hr IH Hs]; [contradiction|].
  rewrite answers_app, written_app. intros Ha. apply in_app_or in Ha. destruct Ha as [Ha|Ha].
  { destruct (IH Ha) as (s & Hs1 & Hs2). exists s. split; [apply in_or_app; auto|exact Hs2]. }
  apply cstep_inv in Hs. inversion Hs; subst; rewrite ?outcome_answers in Ha; cbn in Ha;
    try contradiction; try (destruct Ha as [Ha|[]]; try discriminate Ha).
  - destruct ok; [|discriminate]. injection Ha as <-.
    eexists. split; [apply in_or_app; right; left; reflexivity|].
    cbn [sb_payload]. rewrite !map_map. apply map_ext. intros [t q]. reflexivity.
  - destruct cmd; discriminate.
  - destruct ok; contradiction.
Qed.
Print Assumptions C60_success_means_sent_partial.

(** The broker refuses the filter, subscribe() reports success. *)
Theorem C60_subscribe_result_refuted : exists is c outs s,
  cruns client_new is c outs /\ healthy is /\
  In (subscribe_request 1 [(str "secret"%string, AtLeastOnce)]) (written outs) /\
  In (IRead (RPacket (SubAck s)) true) is /\ sa_packet_id s = 1 /\ sa_payload s = [NotAuthorized] /\
  answers outs = [Subscribed (COk [Mk_sub_result (str "secret"%string) AtLeastOnce true])].
Proof.
  exists [ICommand (CmdSubscribe [(str "secret"%string, AtLeastOnce)]) true;
          IRead (RPacket (SubAck (Mk_suback_packet V5 1 None [NotAuthorized]))) true].
  eexists _, _, _. split; [|split; [|split; [|split; [|split; [|split]]]]].
  - eapply (cruns_snoc _ [_]); [eapply (cruns_snoc _ []); [constructor|reflexivity]|reflexivity].
  - intros i [<-|[<-|[]]]; reflexivity.
  - left. reflexivity.
  - right. left. reflexivity.
  - reflexivity.
  - reflexivity.
  - reflexivity.
Qed.
Print Assumptions C60_subscribe_result_refuted.

(** * C66: requests on the wire *)

(** publish(): the broker parses exactly the message given, with the identifier returned. *)
Theorem C66_publish_on_wire_partial is c outs t d q r c' out :
  cruns client_new is c outs -> cl_alive c = true ->
  cstep c (ICommand (CmdPublish t d q r) true) = Some (c', out) ->
  wf_str t -> q <> QInvalid -> blen t + blen d + 5 <= vbi_max ->
  exists k bs id, out = [Wrote k; Answer (Published (COk id))] /\ packet_enc k = Ok bs /\
    (id = None <-> q = AtMostOnce) /\
    forall p v rest, exists b, parse_with_version p v (bs ++ rest) = Ok (Publish b, rest) /\
      pb_topic b = t /\ pb_payload b = Some d /\ pb_qos b = q /\ pb_retain b = r /\
      pb_dup b = false /\ pb_packet_id b = id.
Proof.
  intros Hr Ha Hs Ht Hq Hl. apply cstep_inv in Hs.
  assert (Hid : cl_next c < 65536).
  { rewrite (proj1 (ids_used _ _ _ Hr)). apply N.mod_upper_bound. discriminate. }
  assert (K : forall id, (match q, id with
                          | AtMostOnce, None => True | AtMostOnce, Some _ => False
                          | _, Some i => wf_id i | _, None => False end) ->
    exists bs, packet_enc (publish_request id t d q r) = Ok bs /\
      forall p v rest, exists b, parse_with_version p v (bs ++ rest) = Ok (Publish b, rest) /\
      pb_topic b = t /\ pb_payload b = Some d /\ pb_qos b = q /\ pb_retain b = r /\
      pb_dup b = false /\ pb_packet_id b = id).
  { intros id Hwf. destruct (publish_sent id t d q r Hl) as (bs & Hbs & Hlen).
    exists bs. split; [exact Hbs|]. intros p v rest.
    eexists. split.
    - apply (C08_packets_round_trip_partial p v _ bs rest Hbs Hlen); [|exact I|exact I].
      split; [exact Hq|]. split; [exact Ht|]. split; [exact Hwf|exact I].
    - repeat split. }
  inversion Hs; subst; unfold outcome.
  - destruct (K None I) as (bs & Hbs & Hp). exists (publish_request None t d AtMostOnce r), bs, None.
    split; [reflexivity|]. split; [exact Hbs|]. split; [tauto|exact Hp].
  - destruct (K (Some (cl_next c))) as (bs & Hbs & Hp).
    { destruct q; try exact Hid. congruence. }
    exists (publish_request (Some (cl_next c)) t d q r), bs, (Some (cl_next c)).
    split; [reflexivity|]. split; [exact Hbs|]. split; [|exact Hp]. split; [discriminate|congruence].
  - congruence.
Qed.
Print Assumptions C66_publish_on_wire_partial.

(** subscribe(): exactly the filters given, in order, at the QoS given. *)
Theorem C66_subscribe_on_wire_partial is c outs ts c' out :
  cruns client_new is c outs -> cl_alive c = true ->
  cstep c (ICommand (CmdSubscribe ts) true) = Some (c', out) ->
  ts <> [] -> Forall (fun t => wf_str (fst t) /\ snd t <> QInvalid) ts ->
  fold_right (fun t n => blen (fst t) + 3 + n) 3 ts <= vbi_max ->
  exists k bs rs, out = [Wrote k; Answer (Subscribed (COk rs))] /\ packet_enc k = Ok bs /\
    forall p v rest, exists s, parse_with_version p v (bs ++ rest) = Ok (Subscribe s, rest) /\
      map (fun f => (fst f, so_qos (snd f))) (sb_payload s) = ts.
Proof.
  intros Hr Ha Hs Hne Hw Hl. apply cstep_inv in Hs.
  assert (Hid : cl_next c < 65536).
  { rewrite (proj1 (ids_used _ _ _ Hr)). apply N.mod_upper_bound. discriminate. }
  inversion Hs; subst; [|congruence].
  destruct (subscribe_sent (cl_next c) ts Hl) as (bs & Hbs & Hlen).
  eexists _, bs, _. split; [reflexivity|]. split; [exact Hbs|]. intros p v rest. eexists. split.
  - apply (C08_packets_round_trip_partial p v _ bs rest Hbs Hlen); [|exact I|exact I].
    split; [exact Hid|]. split; [exact I|]. split.
    + destruct ts; [congruence|discriminate].
    + apply Forall_map. revert Hw. apply Forall_impl. intros [t q] [Q1 Q2].
      split; [exact Q1|]. split; [exact Q2|discriminate].
  - cbn [sb_payload canon]. rewrite map_map. rewrite <- (map_id ts) at 2. apply map_ext. intros [t q]. reflexivity.
Qed.
Print Assumptions C66_subscribe_on_wire_partial.

(** unsubscribe(): exactly the filters given. *)
Theorem C66_unsubscribe_on_wire_partial is c outs ts c' out :
  cruns client_new is c outs -> cl_alive c = true ->
  cstep c (ICommand (CmdUnsubscribe ts) true) = Some (c', out) ->
  ts <> [] -> Forall wf_str ts ->
  fold_right (fun t n => blen t + 2 + n) 3 ts <= vbi_max ->
  exists k bs, out = [Wrote k; Answer (Unsubscribed (COk tt))] /\ packet_enc k = Ok bs /\
    forall p v rest, exists s, parse_with_version p v (bs ++ rest) = Ok (Unsubscribe s, rest) /\
      us_payload s = ts.
Proof.
  intros Hr Ha Hs Hne Hw Hl. apply cstep_inv in Hs.
  assert (Hid : cl_next c < 65536).
  { rewrite (proj1 (ids_used _ _ _ Hr)). apply N.mod_upper_bound. discriminate. }
  inversion Hs; subst; [|congruence].
  destruct (unsubscribe_sent (cl_next c) ts Hl) as (bs & Hbs & Hlen).
  eexists _, bs. split; [reflexivity|]. split; [exact Hbs|]. intros p v rest. eexists. split.
  - apply (C08_packets_round_trip_partial p v _ bs rest Hbs Hlen); [|exact I|exact I].
    split; [exact Hid|]. split; [exact I|]. split; assumption.
  - reflexivity.
Qed.
Print Assumptions C66_unsubscribe_on_wire_partial.

(** A topic longer than 65535 bytes: publish() returns success, but no broker running this
    parser can read the topic back. *)
Theorem C66_long_topic_never_arrives t d q r bs c' out :
  65536 <= blen t -> is_bytes t -> is_bytes d ->
  cstep client_new (ICommand (CmdPublish t d q r) true) = Some (c', out) ->
  (exists k id, out = [Wrote k; Answer (Published (COk id))] /\ packet_enc k = Ok bs) ->
  forall p v b rest, parse_with_version p v bs = Ok (Publish b, rest) -> pb_topic b <> t.
Proof.
  intros Ht Hbt Hbd Hs (k & id & -> & Hk) p v b rest Hp E.
  assert (Hb : is_bytes bs).
  { apply cstep_inv in Hs. inversion Hs; subst; try discriminate.
    - eapply publish_bytes; [exact Hbt|exact Hbd| |exact Hk]. exact I.
    - eapply publish_bytes; [exact Hbt|exact Hbd| |exact Hk]. vm_compute. reflexivity. }
  pose proof (parsed_topic_len p v bs b rest Hb Hp) as Hl. subst t. lia.
Qed.
Print Assumptions C66_long_topic_never_arrives.

(** subscribe() with no filter succeeds, but its SUBSCRIBE is refused by the parser. *)
Theorem C66_requests_on_wire_refuted :
  (exists c' k bs, cstep client_new (ICommand (CmdSubscribe []) true) = Some (c', [Wrote k; Answer (Subscribed (COk []))]) /\
     packet_enc k = Ok bs /\ forall p v, exists e, parse_with_version p v bs = Err e) /\
  exists t d q r c' k id bs, utf8 t /\
     cstep client_new (ICommand (CmdPublish t d q r) true) = Some (c', [Wrote k; Answer (Published (COk id))]) /\
     packet_enc k = Ok bs /\
     forall p v b rest, parse_with_version p v bs = Ok (Publish b, rest) -> pb_topic b <> t.
Proof.
  split.
  - eexists _, _, _. split; [reflexivity|]. split; [reflexivity|]. intros p v. exists (EReason ProtocolError).
    destruct p, v; vm_compute; reflexivity.
  - set (t := repeat 97 (N.to_nat 65536)).
    assert (Hl : blen t = 65536) by (unfold blen, t; rewrite repeat_length, N2Nat.id; reflexivity).
    assert (Hb : is_bytes t) by (apply Forall_forall; intros x Hx; apply repeat_spec in Hx; subst; unfold is_byte; lia).
    destruct (enc_publish (Mk_publish_packet false AtMostOnce false t None None (Some [])) eq_refl) as [bs Hbs].
    exists t, [], AtMostOnce, false. eexists _, _, None, bs.
    assert (Hs : cstep client_new (ICommand (CmdPublish t [] AtMostOnce false) true) =
      Some (client_new, [Wrote (publish_request None t [] AtMostOnce false); Answer (Published (COk None))])).
    { clearbody t. reflexivity. }
    split; [|split; [exact Hs|split; [exact Hbs|]]].
    + exists t. split.
      * apply Forall_forall. intros x Hx. apply repeat_spec in Hx. subst x. left. lia.
      * unfold t. generalize (N.to_nat 65536). induction n; [reflexivity|]. cbn [repeat flat_map]. rewrite <- IHn. reflexivity.
    + eapply C66_long_topic_never_arrives; [rewrite Hl; lia|exact Hb|constructor|exact Hs|].
      eexists _, _. split; [reflexivity|exact Hbs].
Qed.
Print Assumptions C66_requests_on_wire_refuted.

Example C66_ex : exists c' out,
  cstep client_new (ICommand (CmdPublish (str "a/b"%string) (str "v"%string) AtLeastOnce true) true) = Some (c', out) /\
  out = [Wrote (publish_request (Some 1) (str "a/b"%string) (str "v"%string) AtLeastOnce true);
         Answer (Published (COk (Some 1)))].
Proof. eexists _, _. split; reflexivity. Qed.

(** * C67: the end of a connection is reported *)

(** When the loop has ended without a panic, the last event is a [Disconnected]. *)
Theorem C67_end_reported is c outs :
  cruns client_new is c outs -> ~ In IDrop is -> ~ In Panicked outs -> cl_alive c = false ->
  exists es r, told c outs = es ++ [Disconnected r].
Proof.
  induction 1 as [|is c1 outs i c2 out Hr IH Hs]; intros Hn Hp Ha; [discriminate|].
  assert (Hn1 : ~ In IDrop is) by (intros Q; apply Hn, in_or_app; auto).
  assert (Hi : i <> IDrop) by (intros ->; apply Hn, in_or_app; right; left; reflexivity).
  assert (Hp1 : ~ In Panicked outs) by (intros Q; apply Hp, in_or_app; auto).
  assert (Hp2 : ~ In Panicked out) by (intros Q; apply Hp, in_or_app; auto).
  rewrite (told_step _ _ _ _ _ Hs (not_dropped _ _ _ Hr Hn1) Hi).
  destruct (cl_alive c1) eqn:Ha1.
  - apply cstep_inv in Hs. clear IH.
    inversion Hs; subst; cbn [next_id cl_alive] in *; try congruence; try (eexists _, _; reflexivity).
    + cbn [reports]. rewrite Ha1. eexists _, _. reflexivity.
    + destruct ok; rewrite ?report_alive in Ha; congruence.
    + rewrite report_alive in Ha. congruence.
    + exfalso. apply Hp2. left. reflexivity.
  - destruct (IH Hn1 Hp1 eq_refl) as (es & r & ->).
    assert (E : reports c1 i = []).
    { apply cstep_inv in Hs. clear IH. inversion Hs; subst; try (match goal with H : idle _ |- _ => destruct H; congruence end); try reflexivity.
      destruct cmd; cbn [reports]; rewrite ?Ha1; reflexivity. }
    rewrite E, app_nil_r. eexists _, _. reflexivity.
Qed.
Print Assumptions C67_end_reported.

(** Exactly one [Disconnected] for the end, and one for every DISCONNECT the broker sent. *)
Theorem C67_reported_once_partial is c outs :
  cruns client_new is c outs -> ~ In IDrop is -> ~ In Panicked outs ->
  length (farewells (told c outs)) =
    (length (disconnects_read is) + if cl_alive c then 0 else 1)%nat.
Proof.
  induction 1 as [|is c1 outs i c2 out Hr IH Hs]; intros Hn Hp; [reflexivity|].
  assert (Hn1 : ~ In IDrop is) by (intros Q; apply Hn, in_or_app; auto).
  assert (Hi : i <> IDrop) by (intros ->; apply Hn, in_or_app; right; left; reflexivity).
  assert (Hp1 : ~ In Panicked outs) by (intros Q; apply Hp, in_or_app; auto).
  assert (Hp2 : ~ In Panicked out) by (intros Q; apply Hp, in_or_app; auto).
  specialize (IH Hn1 Hp1). pose proof (not_dropped _ _ _ Hr Hn1) as Hd.
  rewrite (told_step _ _ _ _ _ Hs Hd Hi), farewells_app, app_length, IH.
  destruct (step_end _ _ _ _ Hs Hp2) as [E K]. rewrite E.
  unfold disconnects_read at 2. rewrite flat_map_app, !app_length. fold (disconnects_read is).
  assert (L : (length (if cl_alive c1 then if cl_alive c2 then [] else reports c1 i else []) =
               if cl_alive c1 then if cl_alive c2 then 0 else 1 else 0)%nat).
  { destruct (cl_alive c1) eqn:Ha; [|reflexivity]. destruct (cl_alive c2) eqn:Ha2; [reflexivity|].
    apply cstep_inv in Hs. clear IH E K.
    inversion Hs; subst; cbn [next_id cl_alive] in *; try congruence; try reflexivity.
    all: try (cbn [reports]; rewrite Ha; reflexivity).
    all: try (destruct ok; rewrite ?report_alive in Ha2; congruence).
    all: try (rewrite report_alive in Ha2; congruence).
    all: exfalso; apply Hp2; left; reflexivity. }
  rewrite L.
  assert (Ld : length (match i with IRead (RPacket (Disconnect _)) _ => [Disconnected ServerInitiated] | _ => [] end)
    = length (flat_map (fun i => match i with IRead (RPacket (Disconnect d)) _ => [d] | _ => [] end) [i])).
  { destruct i as [[[]| | |]| | | |]; reflexivity. }
  rewrite Ld. destruct (cl_alive c1), (cl_alive c2); try lia; specialize (K eq_refl); discriminate.
Qed.
Print Assumptions C67_reported_once_partial.

(** The broker says DISCONNECT and closes: the application is told twice. *)
Theorem C67_reported_once_refuted : exists is c outs,
  cruns client_new is c outs /\ healthy is /\ ~ In IDrop is /\ ~ In Panicked outs /\
  told c outs = [Disconnected ServerInitiated; Disconnected ServerInitiated].
Proof.
  exists [IRead (RPacket (Disconnect (Mk_disconnect_packet ServerShuttingDown None))) true; IRead RClosed true].
  eexists _, _. split; [|split; [|split; [|split]]].
  - eapply (cruns_snoc _ [_]); [eapply (cruns_snoc _ []); [constructor|reflexivity]|reflexivity].
  - intros i [<-|[<-|[]]]; reflexivity.
  - intros [E|[E|[]]]; discriminate.
  - intros [].
  - reflexivity.
Qed.
Print Assumptions C67_reported_once_refuted.

(** Once the loop has ended nothing is written and nothing more is reported. *)
Theorem C67_nothing_after_end c i c' out outs :
  cl_alive c = false -> cl_dropped c = false -> i <> IDrop -> cstep c i = Some (c', out) ->
  cl_alive c' = false /\ attempted out = [] /\ told c' (outs ++ out) = told c outs.
Proof.
  intros Ha Hd Hi H. rewrite (told_step _ _ _ _ _ H Hd Hi). apply cstep_inv in H.
  inversion H; subst; try (match goal with H : idle _ |- _ => destruct H; congruence end);
    try (cbn; rewrite ?app_nil_r; repeat split; assumption || reflexivity); try congruence.
  split; [exact Ha|]. split; [reflexivity|].
  destruct cmd; cbn [reports]; rewrite ?Ha, app_nil_r; reflexivity.
Qed.
Print Assumptions C67_nothing_after_end.

(** recv() returns every event once, in order, and [None] only when the connection has
    ended and every event has been returned. *)
Theorem C67_recv_none_is_final is c outs :
  cruns client_new is c outs -> ~ In IDrop is -> In (Received None) outs ->
  cl_alive c = false /\ told c outs = received outs.
Proof.
  induction 1 as [|is c1 outs i c2 out Hr IH Hs]; intros Hn Hin; [contradiction|].
  assert (Hn1 : ~ In IDrop is) by (intros Q; apply Hn, in_or_app; auto).
  assert (Hi : i <> IDrop) by (intros ->; apply Hn, in_or_app; right; left; reflexivity).
  pose proof (not_dropped _ _ _ Hr Hn1) as Hd.
  apply in_app_or in Hin. destruct Hin as [Hin|Hin].
  - destruct (IH Hn1 Hin) as [Ha Ht].
    destruct (C67_nothing_after_end _ _ _ _ outs Ha Hd Hi Hs) as (Ha' & _ & Ht').
    split; [exact Ha'|]. rewrite Ht', Ht, received_app.
    rewrite told_pending in Ht. rewrite <- (app_nil_r (received outs)) in Ht at 2. apply app_inv_head in Ht.
    assert (E : received out = []).
    { apply cstep_inv in Hs. clear IH. inversion Hs; subst; rewrite ?outcome_received, ?wrote_received; try reflexivity.
      unfold pending in Ht. match goal with H : cl_queue _ = _ |- _ => rewrite H in Ht end. discriminate. }
    rewrite E, app_nil_r. reflexivity.
  - apply cstep_inv in Hs. clear IH.
    inversion Hs; subst; try (unfold outcome, wrote in Hin; destruct ok; cbn in Hin; intuition discriminate);
      try (cbn in Hin; intuition discriminate).
    split; [assumption|]. rewrite told_pending, received_app. unfold pending.
    match goal with H : cl_queue _ = _ |- _ => rewrite H end. cbn.
    pose proof (waiting_full _ _ _ Hr Hn1) as Hw. destruct (cl_waiting c2) eqn:E; [|rewrite !app_nil_r; reflexivity].
    specialize (Hw ltac:(discriminate)).
    match goal with H : cl_queue _ = [] |- _ => rewrite H in Hw end. discriminate.
Qed.
Print Assumptions C67_recv_none_is_final.

Example C67_ex : exists is c outs, cruns client_new is c outs /\ ~ In IDrop is /\ ~ In Panicked outs /\
  cl_alive c = false /\ In (Received None) outs /\
  told c outs = [message_of (ex_qos1 9); Disconnected ClientInitiated].
Proof.
  exists [IRead (RPacket (Publish (ex_qos1 9))) true; ICommand CmdDisconnect true; IRecv; IRecv; IRecv].
  eexists _, _. split; [|split; [|split; [|split; [|split]]]].
  - apply crun_sound. vm_compute. reflexivity.
  - intros [E|[E|[E|[E|[E|[]]]]]]; discriminate.
  - cbn. intuition discriminate.
  - reflexivity.
  - cbn. auto 10.
  - reflexivity.
Qed.

(** * C68: every call is answered *)

(** Every call served is answered exactly once, in the order served. *)
Theorem C68_one_answer_each is c outs :
  cruns client_new is c outs -> Forall2 answers_call (answers outs) (calls is).
Proof.
  induction 1 as [|is c1 outs i c2 out Hr IH Hs]; [constructor|].
  rewrite answers_app, calls_app. apply Forall2_app; [exact IH|].
  apply cstep_inv in Hs. inversion Hs; subst; rewrite ?outcome_answers; cbn; try (repeat constructor).
  - destruct cmd; exact I.
  - destruct ok; constructor.
Qed.
Print Assumptions C68_one_answer_each.

(** A call reports success exactly when the loop was running and its packet was written. *)
Theorem C68_success_iff_written c cmd ok c' out :
  cstep c (ICommand cmd ok) = Some (c', out) ->
  exists r, answers out = [r] /\ (succeeded r <-> cl_alive c = true /\ ok = true) /\
    (succeeded r -> exists k, written out = [k]) /\ (~ succeeded r -> written out = []).
Proof.
  intros H. apply cstep_inv in H.
  inversion H; subst; rewrite ?outcome_answers, ?outcome_written.
  6:{ eexists. split; [reflexivity|]. split; [|split].
      - split; [destruct cmd; contradiction|intros []; congruence].
      - destruct cmd; contradiction.
      - reflexivity. }
  all: match goal with H : idle _ |- _ => destruct H as [Ha _] end.
  all: eexists; (split; [reflexivity|]); destruct ok; cbn;
    (split; [|split]); try tauto; try (intros; eexists; reflexivity); try (split; tauto || congruence);
    intros; intuition congruence.
Qed.
Print Assumptions C68_success_iff_written.

(** * C69: calls are not blocked *)

(** As long as at most 256 reported events have not been received, every call is served
    and answered at once. *)
Theorem C69_calls_served_partial is c outs :
  cruns client_new is c outs -> ~ In IDrop is ->
  (length (told c outs) <= length (received outs) + 256)%nat ->
  forall cmd ok, exists c' out r, cstep c (ICommand cmd ok) = Some (c', out) /\ answers out = [r].
Proof.
  intros H Hn Hl cmd ok. pose proof (not_dropped _ _ _ H Hn) as Hd.
  assert (Hw : cl_waiting c = None).
  { destruct (cl_waiting c) eqn:E; [|reflexivity]. exfalso.
    pose proof (waiting_full _ _ _ H Hn ltac:(rewrite E; discriminate)) as Hf.
    unfold told in Hl. rewrite E, !app_length, Hf in Hl. cbn [length] in Hl. unfold event_capacity in *. lia. }
  destruct (cstep c (ICommand cmd ok)) as [[c' out]|] eqn:E.
  - exists c', out. destruct (C68_success_iff_written _ _ _ _ _ E) as (r & Hr & _). eauto.
  - cbn [cstep] in E. rewrite Hd, Hw in E. cbn in E. destruct (cl_alive c); discriminate.
Qed.
Print Assumptions C69_calls_served_partial.

(** With one more, no call is served, no PINGREQ is sent and nothing is read until the
    application calls recv() (or drops the client): a task that waits for publish() before
    it goes back to recv() waits for ever, and so does disconnect(). *)
Theorem C69_calls_served_refuted : exists is c outs,
  cruns client_new is c outs /\ healthy is /\ ~ In IDrop is /\ cl_alive c = true /\
  forall i, i <> IRecv -> i <> IDrop -> cstep c i = None.
Proof.
  set (m := IRead (RPacket (Publish (ex_qos2 false))) true).
  assert (Hf : forall n, (n <= 256)%nat -> exists outs,
    cruns client_new (repeat m n) (Mk_client 1 (repeat (message_of (ex_qos2 false)) n) None true false) outs).
  { induction n as [|n IH]; intros Hle; [exists []; constructor|].
    destruct (IH ltac:(lia)) as [outs Hr]. eexists.
    replace (S n) with (n + 1)%nat by lia. rewrite !repeat_app.
    eapply cruns_snoc; [exact Hr|]. cbn [cstep m cl_alive cl_waiting negb orb is_some handle_incoming ex_qos2 pb_qos].
    unfold report. cbn [cl_dropped cl_queue]. rewrite repeat_length.
    replace (Nat.ltb n event_capacity) with true by (symmetry; apply Nat.ltb_lt; unfold event_capacity; lia).
    reflexivity. }
  destruct (Hf 256%nat (le_n _)) as [outs Hr].
  eexists (repeat m 256 ++ [m]), _, _. split; [eapply cruns_snoc; [exact Hr|reflexivity]|].
  split; [|split; [|split]].
  - intros i Hi. apply in_app_or in Hi. destruct Hi as [Hi|[<-|[]]]; [apply repeat_spec in Hi; subst i|]; reflexivity.
  - intros Hi. apply in_app_or in Hi. destruct Hi as [Hi|[Hi|[]]]; [apply repeat_spec in Hi|]; discriminate.
  - reflexivity.
  - intros i H1 H2. destruct i; try reflexivity; congruence.
Qed.
Print Assumptions C69_calls_served_refuted.

(** * C70: dropping the client *)

(** Dropping the client without disconnect() does not end the connection: the loop stays,
    and keeps the session alive with PINGREQs for as long as they can be written. *)
Theorem C70_drop_keeps_connection_refuted c :
  idle c -> cl_dropped c = false ->
  exists c', cstep c IDrop = Some (c', []) /\
  forall n, cruns c' (repeat (ITick true) n) c' (repeat (Wrote PingReq) n).
Proof.
  intros [Ha Hw] Hd. cbn [cstep]. rewrite Hd. eexists. split; [reflexivity|].
  induction n as [|n IH]; [constructor|].
  replace (S n) with (n + 1)%nat by lia. rewrite !repeat_app.
  eapply cruns_snoc; [exact IH|]. cbn [cstep cl_alive]. rewrite Ha. reflexivity.
Qed.
Print Assumptions C70_drop_keeps_connection_refuted.
(** Calling disconnect() first does. *)
Theorem C70_disconnect_ends_connection c ok c' out :
  cl_alive c = true -> cstep c (ICommand CmdDisconnect ok) = Some (c', out) ->
  cl_alive c' = false /\ attempted out = [disconnect_request].
Proof.
  intros Ha H. apply cstep_inv in H. inversion H; subst; [|congruence].
  rewrite stop_alive, outcome_attempted. split; reflexivity.
Qed.
Print Assumptions C70_disconnect_ends_connection.
Example C70_ex : idle client_new /\ cl_dropped client_new = false.
Proof. repeat split. Qed.
