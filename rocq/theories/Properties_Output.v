(** Property C97: what the broker writes are packets of the standard (SpecWire.v).
    Every theorem is followed by a concrete case meeting its hypotheses. *)
From Coq Require Import String.
From Verif Require Import Base Utf8 Codec Str SpecCodec Property SpecProperty PacketProps Packets SpecPackets Frame Tac Maps CodecFacts
  PropertyFacts PacketPropsFacts PacketsFacts PacketsRoundtrip PacketsDefects SpecWire WireConform WireAccept WireDefects
  Topic SpecTopic TopicTree Storage Broker Auth Session Server SpecServer ServerFacts HistoryFacts ProvenanceFacts
  SpecOutput OutputFacts Examples Properties_Auth Properties_Format.

(** ** Events that come over a network, for the examples: packets are written and read again. *)
Definition travel (k : packet) : packet :=
  match packet_enc k with Ok bs => match parse_with_version Debug V5 bs with Ok (k', _) => k' | _ => k end | _ => k end.
Definition travels (k : packet) : bool :=
  match packet_enc k with
  | Ok bs => forallb (fun b => b <? 256) bs && (blen bs <? two64) && match parse_with_version Debug V5 bs with Ok _ => true | _ => false end
  | _ => false
  end.
Definition net (e : event) : event :=
  match e with
  | EFirst c (Some k) u a => EFirst c (Some (travel k)) u a
  | EPacket c k => EPacket c (travel k)
  | _ => e
  end.
Definition netted (e : event) : bool :=
  match e with
  | EFirst c (Some k) u a => travels k && utf8_valid u && (blen u <=? 65535)
  | EPacket c k => travels k
  | _ => true
  end.
Lemma bytes_by bs : forallb (fun b => b <? 256) bs = true -> is_bytes bs.
Proof. intros H. rewrite forallb_forall in H. apply Forall_forall. intros x Hx. specialize (H x Hx). unfold is_byte. lia. Qed.
Lemma travels_received k : travels k = true -> received (travel k).
Proof.
  unfold travels, travel. destruct (packet_enc k) as [bs| |]; try discriminate. intros H.
  apply andb_true_iff in H. destruct H as [H Hp]. apply andb_true_iff in H. destruct H as [H1 H2].
  destruct (parse_with_version Debug V5 bs) as [[k' r]| |] eqn:E; try discriminate.
  exists Debug, V5, bs, r. split; [apply bytes_by, H1|]. split; [lia|exact E].
Qed.
Lemma netted_ok es : forallb netted es = true -> Forall from_network (map net es).
Proof.
  intros H. rewrite forallb_forall in H. apply Forall_forall. intros e He. apply in_map_iff in He. destruct He as (e0 & <- & Hin).
  specialize (H e0 Hin). destruct e0 as [c [k|] u a|c k|c f|c|c|]; cbn in *; auto using travels_received.
  apply andb_true_iff in H. destruct H as [H H3]. apply andb_true_iff in H. destruct H as [H1 H2].
  split; [apply travels_received, H1|]. apply wf_str_by; assumption.
Qed.
Ltac speak := repeat constructor.

(** ** C97: if all clients speak the same version and send whatever bytes, every packet written, but those of [exceptional],
    is a packet of that version *)
Theorem C97_written_packets_conform_partial cfg v es c k :
  Forall from_network es -> Forall (speaks v) es -> In (Sent c k) (snd (run cfg es world_new)) -> ~ exceptional v k ->
  exists bs, packet_enc k = Ok bs /\ (blen bs <= max_frame -> wire v (canon k) bs).
Proof.
  intros Hn Hv Hin He. apply proper_wire; [|exact He].
  apply (run_sent_proper cfg v es [] world_new c k); auto using tidy_new, prov_new.
Qed.
Print Assumptions C97_written_packets_conform_partial.
Definition ex_out : list event :=
  map net [EFirst 1 (Some (Connect (ex_connect "" true))) (str "uuid") true; ex_first 2 (ex_connect "b" true); ex_sub 1 "x/+";
    ex_pub 2 AtLeastOnce (Some 5) "x/y" "v"; EOut 1 (str "x/+")].
Example C97_ex : Forall from_network ex_out /\ Forall (speaks V5) ex_out /\
  snd (run ex_open ex_out world_new) =
    [Sent 1 (ConnAck (Mk_connack_packet V5 false Success (Some (assigned_props (str "uuid")))));
     Sent 2 (ConnAck (Mk_connack_packet V5 false Success None));
     Sent 1 (SubAck (Mk_suback_packet V5 7 None [GrantedQoS0]));
     Sent 2 (PubAck (Mk_ack_packet 5 Success None));
     Sent 1 (Publish (Mk_publish_packet false AtLeastOnce false (str "x/+") (Some 5) None (Some (str "v"))))]
  /\ Forall (fun o => match o with Sent _ k => ~ exceptional V5 k | _ => False end) (snd (run ex_open ex_out world_new)).
Proof.
  split; [apply netted_ok; vm_compute; reflexivity|]. split; [unfold ex_out; speak|].
  split; [vm_compute; reflexivity|].
  replace (snd (run ex_open ex_out world_new)) with
    [Sent 1 (ConnAck (Mk_connack_packet V5 false Success (Some (assigned_props (str "uuid")))));
     Sent 2 (ConnAck (Mk_connack_packet V5 false Success None));
     Sent 1 (SubAck (Mk_suback_packet V5 7 None [GrantedQoS0]));
     Sent 2 (PubAck (Mk_ack_packet 5 Success None));
     Sent 1 (Publish (Mk_publish_packet false AtLeastOnce false (str "x/+") (Some 5) None (Some (str "v"))))] by (vm_compute; reflexivity).
  repeat constructor; cbn; intuition congruence.
Qed.
(** Version 3.1.1: CONNACK, SUBACK and PINGRESP. *)
Definition ex_connect3 (id : string) (clean : bool) : connect_packet :=
  Mk_connect_packet V3_1_1 (Mk_connect_flags false false false AtMostOnce false clean) 60 None
    (Mk_connect_payload (str id) None None None None None).
Definition ex_out3 : list event := map net [ex_first 1 (ex_connect3 "a" true); ex_sub 1 "x/+"; EPacket 1 PingReq].
Example C97_ex3 : Forall from_network ex_out3 /\ Forall (speaks V3_1_1) ex_out3 /\
  snd (run ex_open ex_out3 world_new) = [Sent 1 (ConnAck (Mk_connack_packet V3_1_1 false Success None));
     Sent 1 (SubAck (Mk_suback_packet V3_1_1 7 None [GrantedQoS0])); Sent 1 PingResp].
Proof.
  split; [apply netted_ok; vm_compute; reflexivity|]. split; [unfold ex_out3; speak|]. vm_compute; reflexivity.
Qed.

(** A PUBLISH to a client of version 3 is a packet, of a message with one more byte: the property length. *)
Theorem C97_version_3_payload_refuted cfg v es c b :
  Forall from_network es -> Forall (speaks v) es -> v <> V5 -> In (Sent c (Publish b)) (snd (run cfg es world_new)) ->
  (pb_qos b <> AtMostOnce -> pb_packet_id b <> None) ->
  exists bs, packet_enc (Publish b) = Ok bs /\ (blen bs <= max_frame ->
    wire v (Publish (Mk_publish_packet (pb_dup b) (pb_qos b) (pb_retain b) (pb_topic b) (pb_packet_id b) None
                       (Some (0 :: match pb_payload b with Some d => d | None => [] end)))) bs).
Proof.
  intros Hn Hv Hne Hin Hid. apply (proper_publish_v3 v b); auto.
  apply (run_sent_proper cfg v es [] world_new c (Publish b)); auto using tidy_new, prov_new.
Qed.
Print Assumptions C97_version_3_payload_refuted.
Example C97_version_3_ex : let es := map net [ex_first 1 (ex_connect3 "a" true); ex_first 2 (ex_connect3 "b" true); ex_sub 1 "x";
    ex_pub 2 AtMostOnce None "x" "v"; EOut 1 (str "x")] in
  Forall from_network es /\ Forall (speaks V3_1_1) es /\
  In (Sent 1 (Publish (Mk_publish_packet false AtMostOnce false (str "x") None None (Some (str "v"))))) (snd (run ex_open es world_new)).
Proof.
  split; [apply netted_ok; vm_compute; reflexivity|]. split; [speak|]. vm_compute. tauto.
Qed.

(** ** The exceptions are reached *)

(** A will with QoS 1 is written as a PUBLISH without packet identifier; the bytes are no packet. *)
Theorem C97_will_without_identifier_refuted : exists cfg es c b bs,
  Forall from_network es /\ Forall (speaks V5) es /\ In (Sent c (Publish b)) (snd (run cfg es world_new)) /\
  packet_enc (Publish b) = Ok bs /\ forall k, ~ wire V5 k bs.
Proof.
  exists ex_open, (map net [ex_first 1 (ex_connect "a" true); ex_sub 1 "x";
    ex_first 2 (Mk_connect_packet V5 (Mk_connect_flags false false false AtLeastOnce true true) 60 None
      (Mk_connect_payload (str "b") None (Some (str "x")) (Some []) None None)); EEnd 2; EOut 1 (str "x")]).
  exists 1%nat, (Mk_publish_packet false AtLeastOnce false (str "x") None None (Some [])), [0x32; 4; 0; 1; 120; 0].
  split; [apply netted_ok; vm_compute; reflexivity|]. split; [speak|]. split; [vm_compute; tauto|].
  split; [vm_compute; reflexivity|exact publish_no_id_not_wire].
Qed.
Print Assumptions C97_will_without_identifier_refuted.
(** AUTH is not written as the standard says. *)
Theorem C97_auth_refuted : exists cfg es c a bs,
  Forall from_network es /\ Forall (speaks V5) es /\ In (Sent c (Auth a)) (snd (run cfg es world_new)) /\
  packet_enc (Auth a) = Ok bs /\ forall v, ~ wire v (Auth a) bs.
Proof.
  exists ex_auth_cfg, (map net [ex_first 1 (ex_connect "a" true)] ++ [ex_reauth 1 None]), 1%nat.
  exists (Mk_auth_packet ContinueAuthentication (Mk_auth_props (Some (str "TWO")) (Some (str "who?")) None None)). eexists.
  split; [apply Forall_app; split; [apply netted_ok; vm_compute; reflexivity|]|].
  { constructor; [|constructor]. exists Debug, V5, [0xF0; 8; 0x19; 6; 0x15; 0; 3; 84; 87; 79], [].
    split; [apply bytes_by; reflexivity|]. split; [reflexivity|vm_compute; reflexivity]. }
  split; [speak|]. split; [vm_compute; tauto|].
  split; [vm_compute; reflexivity|]. intros v. apply auth_not_wire.
  - vm_compute. reflexivity.
  - vm_compute. discriminate.
  - apply bytes_by. vm_compute. reflexivity.
Qed.
Print Assumptions C97_auth_refuted.
(** A filter of a client of version 3.1.1 is refused with a code of version 5. *)
Theorem C97_refused_filter_version_3_refuted : exists cfg es c s bs,
  Forall from_network es /\ Forall (speaks V3_1_1) es /\ In (Sent c (SubAck s)) (snd (run cfg es world_new)) /\
  packet_enc (SubAck s) = Ok bs /\ forall v k, v <> V5 -> ~ wire v k bs.
Proof.
  exists ex_open, (map net [ex_first 1 (ex_connect3 "a" true); ex_sub 1 "x#"]), 1%nat.
  exists (Mk_suback_packet V3_1_1 7 None [TopicFilterInvalid]), [0x90; 3; 0; 7; 0x8F].
  split; [apply netted_ok; vm_compute; reflexivity|]. split; [speak|]. split; [vm_compute; tauto|].
  split; [vm_compute; reflexivity|exact suback_refused_not_wire].
Qed.
Print Assumptions C97_refused_filter_version_3_refuted.
(** A SUBSCRIBE without filters, if other bytes follow (here a PINGREQ), is answered by a SUBACK without codes. *)
Theorem C97_empty_subscribe_refuted : exists cfg es c s bs,
  Forall from_network es /\ Forall (speaks V5) es /\ In (Sent c (SubAck s)) (snd (run cfg es world_new)) /\
  packet_enc (SubAck s) = Ok bs /\ forall k, ~ wire V5 k bs.
Proof.
  exists ex_open, (map net [ex_first 1 (ex_connect "a" true)] ++ [EPacket 1 (Subscribe (Mk_subscribe_packet 7 (Some subscribe_props_default) []))]), 1%nat.
  exists (Mk_suback_packet V5 7 None []), [0x90; 3; 0; 7; 0].
  split; [apply Forall_app; split; [apply netted_ok; vm_compute; reflexivity|]|].
  { constructor; [|constructor]. exists Debug, V5, [0x82; 3; 0; 7; 0; 0xC0; 0], [0xC0; 0].
    split; [apply bytes_by; reflexivity|]. split; [reflexivity|vm_compute; reflexivity]. }
  split; [speak|]. split; [vm_compute; tauto|].
  split; [vm_compute; reflexivity|exact suback_empty_not_wire].
Qed.
Print Assumptions C97_empty_subscribe_refuted.
(** If versions are mixed: a client of version 5 whose session was entered by a client of version 3.1.1 gets a SUBACK of
    version 3.1.1. *)
Theorem C97_mixed_versions_refuted : exists cfg es c d k5 k3 u s bs,
  Forall from_network es /\ In (EFirst c (Some (Connect k5)) u true) es /\ c_protocol_version k5 = V5 /\
  In (EFirst d (Some (Connect k3)) u true) es /\ c_protocol_version k3 = V3_1_1 /\ c <> d /\
  In (Sent c (SubAck s)) (snd (run cfg es world_new)) /\ packet_enc (SubAck s) = Ok bs /\ forall k, ~ wire V5 k bs.
Proof.
  exists ex_open, (map net [ex_first 1 (ex_connect "a" false); ex_first 2 (ex_connect3 "a" false); ex_sub 1 "x"]), 1%nat, 2%nat.
  do 3 eexists. exists (Mk_suback_packet V3_1_1 7 None [GrantedQoS0]), [0x90; 3; 0; 7; 0].
  split; [apply netted_ok; vm_compute; reflexivity|]. split; [left; vm_compute; reflexivity|]. split; [reflexivity|].
  split; [right; left; vm_compute; reflexivity|]. split; [reflexivity|]. split; [discriminate|].
  split; [vm_compute; tauto|]. split; [vm_compute; reflexivity|exact suback_empty_not_wire].
Qed.
Print Assumptions C97_mixed_versions_refuted.

(** The topic of a PUBLISH is replaced by the filter, which can be longer: a message that could just be received is written
    as something too long for a packet. *)
Definition ex_big (d : bytes) : publish_packet := Mk_publish_packet false AtMostOnce false (str "a") None None (Some d).
Definition ex_big_run (d : bytes) : list event :=
  map net [ex_first 1 (ex_connect "a" true); ex_sub 1 "a/#"; ex_first 2 (ex_connect "b" true)]
  ++ [EPacket 2 (canon (Publish (ex_big d))); EOut 1 (str "a/#")].
Definition ex_big_sent (d : bytes) : publish_packet := Mk_publish_packet false AtMostOnce false (str "a/#") None None (Some d).
Lemma big_sent d : In (Sent 1 (Publish (ex_big_sent d))) (snd (run ex_open (ex_big_run d) world_new)).
Proof. vm_compute. tauto. Qed.
Lemma big_received d : is_bytes d -> blen d = 268435451 -> received (canon (Publish (ex_big d))).
Proof.
  intros Hb Hd. assert (Hw : wf_packet (Publish (ex_big d))).
  { cbn. split; [discriminate|]. split; [apply wf_str_by; reflexivity|]. split; exact I. }
  assert (Hfit : props_fit (Publish (ex_big d))) by (split; [constructor|vm_compute; discriminate]).
  destruct (packet_enc_total _ Hfit) as (bs & He). exists Debug, V5, bs, [].
  assert (Hl : blen bs <= max_frame /\ is_bytes bs).
  { cbn [packet_enc] in He. unfold publish_enc in He. cbn [ex_big pb_properties osize bind vsize] in He.
    change (vsize 0) with (Ok 1) in He. cbn [bind] in He. apply Ok_inj in He. 
    cbn [ex_big pb_topic pb_packet_id pb_payload obytes pid_size] in He. rewrite Hd in He.
    replace (venc (str_size (str "a") + 0 + 1 + 0 + 268435451)) with [255; 255; 255; 127] in He by (vm_compute; reflexivity).
    subst bs. split.
    - rewrite !blen_app, Hd. vm_compute. discriminate.
    - apply Forall_app. split; [repeat constructor|]. apply Forall_app. split; [apply bytes_by; reflexivity|].
      apply Forall_app. split; [apply bytes_by; vm_compute; reflexivity|]. cbn. constructor; [reflexivity|exact Hb]. }
  destruct Hl as [Hl Hbs]. split; [exact Hbs|]. split; [unfold max_frame in Hl; eapply N.le_lt_trans; [exact Hl|reflexivity]|].
  rewrite <- (app_nil_r bs). apply packet_rt; auto.
  - exact I.
  - exact I.
Qed.
Theorem C97_too_long_refuted : exists cfg es c b bs,
  Forall from_network es /\ Forall (speaks V5) es /\ In (Sent c (Publish b)) (snd (run cfg es world_new)) /\
  packet_enc (Publish b) = Ok bs /\ forall v k, ~ wire v k bs.
Proof.
  assert (Hd : exists d, is_bytes d /\ blen d = 268435451).
  { exists (repeat 0 (N.to_nat 268435451)). split.
    - apply Forall_forall. intros x Hx. apply repeat_spec in Hx. subst x. reflexivity.
    - unfold blen. rewrite repeat_length. apply N2Nat.id. }
  destruct Hd as (d & Hb & Hd). exists ex_open, (ex_big_run d), 1%nat, (ex_big_sent d).
  assert (Hfit : props_fit (Publish (ex_big_sent d))) by (split; [constructor|vm_compute; discriminate]).
  destruct (packet_enc_total _ Hfit) as (bs & He). exists bs.
  split; [|split; [|split; [exact (big_sent d)|split; [exact He|]]]].
  - apply Forall_app. split; [apply netted_ok; vm_compute; reflexivity|].
    constructor; [apply big_received; assumption|]. constructor; [exact I|constructor].
  - apply Forall_app. split; [speak|]. constructor; [exact I|]. constructor; [exact I|constructor].
  - intros v k Hw. apply wire_len in Hw. cbn [packet_enc] in He. unfold publish_enc in He.
    cbn [ex_big_sent pb_properties osize bind] in He. change (vsize 0) with (Ok 1) in He. cbn [bind] in He. apply Ok_inj in He.
    cbn [ex_big_sent pb_topic pb_packet_id pb_payload obytes pid_size] in He. rewrite Hd in He.
    replace (venc (str_size (str "a/#") + 0 + 1 + 0 + 268435451)) with [129; 128; 128; 128; 1] in He by (vm_compute; reflexivity).
    subst bs. rewrite !blen_app, Hd in Hw. vm_compute in Hw. apply Hw. reflexivity.
Qed.
Print Assumptions C97_too_long_refuted.
