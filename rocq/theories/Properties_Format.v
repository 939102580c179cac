(** Properties C94-C96: the bytes of the packets against the MQTT standards (SpecWire.v).
    Every theorem is followed by a concrete case meeting its hypotheses. *)
From Verif Require Import Base Utf8 Codec SpecCodec Property SpecProperty PacketProps Packets
  SpecPackets Frame Tac CodecFacts PropertyFacts PacketPropsFacts PacketsFacts PacketsRoundtrip
  ParseFacts PacketsDefects FrameFacts WireFacts SpecWire WireConform WireAccept WireDefects Properties_Wire.

Lemma wf_str_by s : utf8_valid s = true -> (blen s <=? 65535) = true -> wf_str s.
Proof. intros A B. split; [apply utf8_valid_iff, A|lia]. Qed.
(** For the conditions on concrete packets. *)
Ltac concrete := cbn -[wf_str];
  repeat match goal with
  | |- wf_str _ => apply wf_str_by; reflexivity
  | |- _ /\ _ => split
  | |- Forall _ (_ :: _) => constructor; cbn -[wf_str]
  | |- Forall _ [] => constructor
  | |- True => exact I
  | |- _ -> _ => intro
  | |- _ <> _ => discriminate
  | |- _ < _ => reflexivity
  | |- _ <= _ => discriminate
  | H : _ = true |- _ => discriminate H
  | |- wf_user _ => discriminate
  | |- wf_connect _ => split
  | |- wf_publish _ => split
  | |- wf_options _ => split
  | |- wf_connect_props _ => split; cbn -[wf_str]
  | |- wf_publish_props _ => split; cbn -[wf_str]
  | |- wf_subscribe_props _ => split; cbn -[wf_str]
  | |- wf_ack_props _ => split; cbn -[wf_str]
  | |- owf _ _ => cbn -[wf_str]
  | |- wf_id _ => reflexivity
  | |- is_bytes _ => unfold is_bytes
  | |- is_byte _ => reflexivity
  end; try reflexivity.
Lemma short_frame h body : blen body < 128 -> frame h body (h :: blen body :: body).
Proof. intros H. exists [blen body]. split; [reflexivity|]. apply varint_iff. rewrite vbi_enc_1 by lia. split; [unfold vbi_max; lia|reflexivity]. Qed.

(** ** C94: what is sent is a packet of the standard *)
Theorem C94_sent_packets_conform_partial k bs :
  packet_enc k = Ok bs -> blen bs <= max_frame -> wf_packet k -> sendable k -> wire (version_of k) (canon k) bs.
Proof. exact (packet_conform k bs). Qed.
Print Assumptions C94_sent_packets_conform_partial.
(** Not so for what [sendable] leaves out: no AUTH and no DISCONNECT with properties is written as the standard
    says, ... *)
Theorem C94_auth_never_conforms_refuted a bs v :
  packet_enc (Auth a) = Ok bs -> blen bs <= max_frame -> is_bytes bs -> ~ wire v (Auth a) bs.
Proof. exact (auth_not_wire a bs v). Qed.
Print Assumptions C94_auth_never_conforms_refuted.
Theorem C94_disconnect_with_properties_never_conforms_refuted d bs v :
  packet_enc (Disconnect d) = Ok bs -> blen bs <= max_frame -> is_bytes bs ->
  oenc disconnect_props_list (d_properties d) <> [] -> ~ wire v (Disconnect d) bs.
Proof. exact (disconnect_not_wire d bs v). Qed.
Print Assumptions C94_disconnect_with_properties_never_conforms_refuted.
(** ... a CONNECT can have the retain flag of a will and no will, and a SUBACK of version 3.1.1 can have a code of
    version 5: these bytes are no packets at all. *)
Theorem C94_sent_bytes_are_no_packet_refuted :
  exists c s bc bs, packet_enc (Connect c) = Ok bc /\ packet_enc (SubAck s) = Ok bs /\
    wf_packet (Connect c) /\ wf_packet (SubAck s) /\
    (forall v k, ~ wire v k bc) /\ (forall v k, v <> V5 -> ~ wire v k bs) /\ sa_protocol_version s = V3_1_1.
Proof.
  exists retain_connect, (Mk_suback_packet V3_1_1 1 None [TopicFilterInvalid]). do 2 eexists.
  split; [exact (proj1 retain_connect_not_wire)|]. split; [exact (proj1 suback_v3_not_wire)|].
  split; [concrete|]. split; [concrete|].
  split; [exact (proj2 retain_connect_not_wire)|]. split; [exact (proj2 suback_v3_not_wire)|reflexivity].
Qed.
Print Assumptions C94_sent_bytes_are_no_packet_refuted.
Lemma ex_publish_wire : wire V5 ex_publish ex_publish_bytes.
Proof.
  refine (C94_sent_packets_conform_partial ex_publish ex_publish_bytes _ _ _ _).
  - vm_compute. reflexivity.
  - vm_compute. discriminate.
  - apply C08_ex.
  - cbn. repeat constructor; unfold is_byte; lia.
Qed.
Example C94_ex : packet_enc ex_publish = Ok ex_publish_bytes /\ wf_packet ex_publish /\ sendable ex_publish /\
  wire V5 ex_publish ex_publish_bytes.
Proof.
  split; [vm_compute; reflexivity|]. split; [apply C08_ex|]. split; [|exact ex_publish_wire].
  cbn. repeat constructor; unfold is_byte; lia.
Qed.

(** ** C95: every packet of the standard is understood *)
Theorem C95_conforming_packets_understood_partial p v k bs r :
  wire v k bs -> readable v k bs -> exists k', parse_with_version p v (bs ++ r) = Ok (k', r) /\ same_code k k'.
Proof. exact (packet_read p v k bs r). Qed.
Print Assumptions C95_conforming_packets_understood_partial.
Example C95_ex : wire V5 ex_publish ex_publish_bytes /\ readable V5 ex_publish ex_publish_bytes /\
  parse_with_version Release V5 (ex_publish_bytes ++ [7]) = Ok (ex_publish, [7]).
Proof. split; [exact ex_publish_wire|]. split; [reflexivity|vm_compute; reflexivity]. Qed.
(** Not so for what [readable] leaves out. No acknowledgement with a reason and without properties is read as such, ... *)
Theorem C95_reason_without_properties_refuted p v k bs r k' : wire v k bs ->
  match k with PubAck _ | PubRec _ | PubRel _ | PubComp _ => True | _ => False end -> blen bs = 5 ->
  is_bytes (bs ++ r) -> blen (bs ++ r) < two64 -> parse_with_version p v (bs ++ r) <> Ok (k', r).
Proof. exact (ack_short_never p v k bs r k'). Qed.
Print Assumptions C95_reason_without_properties_refuted.
Example C95_puback_ex : wire V5 (PubAck (Mk_ack_packet 1 NoMatchingSubscribers None)) [0x40; 3; 0; 1; 0x10].
Proof.
  exists [0; 1; 0x10]. split; [apply (short_frame 0x40 [0; 1; 0x10]); reflexivity|].
  exists [0; 1], [0x10]. split; [reflexivity|]. split; [exists 0, 1; repeat split|]. right. left. auto.
Qed.
(** ... nor the AUTH without reason and properties, nor a PINGREQ or PINGRESP (one byte is left), ... *)
Theorem C95_short_packets_refuted p v r k : is_bytes r -> blen r + 2 < two64 ->
  (wire V5 (Auth (Mk_auth_packet Success (auth_says []))) [0xF0; 0] /\ parse_with_version p v ([0xF0; 0] ++ r) <> Ok (k, r)) /\
  (wire v PingReq [0xC0; 0] /\ parse_with_version p v ([0xC0; 0] ++ r) = Ok (PingReq, 0 :: r)) /\
  (wire v PingResp [0xD0; 0] /\ parse_with_version p v ([0xD0; 0] ++ r) = Ok (PingResp, 0 :: r)).
Proof.
  intros Hb Hl. split; [|split; (split; [apply short_frame; reflexivity|reflexivity])].
  split; [|apply auth_empty_never; assumption].
  split; [reflexivity|]. exists []. split; [apply short_frame; reflexivity|]. left. auto.
Qed.
Print Assumptions C95_short_packets_refuted.
(** ... nor a CONNECT with Request Response Information, ... *)
Definition ex_rri : connect_packet :=
  Mk_connect_packet V5 (Mk_connect_flags false false false AtMostOnce false true) 60
    (Some (Mk_connect_props None None None None (Some 1) None None None None)) (Mk_connect_payload [97] None None None None None).
Theorem C95_request_response_information_refuted p v c bs a :
  wire v (Connect c) bs -> c_properties c = Some a -> cp_request_response_information a <> None ->
  forall r k' r', parse_with_version p v (bs ++ r) = Ok (k', r') -> ~ same_code (Connect c) k'.
Proof.
  intros _ Hc Hr r k' r' H Hs. cbn in Hs. destruct k'; try discriminate. injection Hs as <-.
  exact (Hr (connect_rri_never p v _ c a r' H Hc)).
Qed.
Print Assumptions C95_request_response_information_refuted.
Example C95_rri_ex : exists bs, wire V5 (Connect ex_rri) bs.
Proof.
  eexists. refine (packet_conform (Connect ex_rri) _ _ _ _ _).
  - vm_compute. reflexivity.
  - vm_compute. discriminate.
  - concrete.
  - intros _. reflexivity.
Qed.
(** ... nor a PUBLISH, SUBSCRIBE or UNSUBSCRIBE of version 3.1.1. *)
Definition ex_v3_publish : packet := Publish (Mk_publish_packet false AtMostOnce false [97] None None (Some [0; 104])).
Definition ex_v3_subscribe : packet := Subscribe (Mk_subscribe_packet 1 None [([97], Mk_sub_options AtMostOnce false false SendRetained)]).
Definition ex_v3_unsubscribe : packet := Unsubscribe (Mk_unsubscribe_packet 1 None [[97]]).
Theorem C95_version_3_refuted p :
  wire V3_1_1 ex_v3_publish [0x30; 5; 0; 1; 97; 0; 104] /\
  wire V3_1_1 ex_v3_subscribe [0x82; 6; 0; 1; 0; 1; 97; 0] /\
  wire V3_1_1 ex_v3_unsubscribe [0xA2; 5; 0; 1; 0; 1; 97] /\
  (exists k, parse_with_version p V3_1_1 [0x30; 5; 0; 1; 97; 0; 104] = Ok (k, []) /\ ~ same_code ex_v3_publish k) /\
  (forall k r, parse_with_version p V3_1_1 [0x82; 6; 0; 1; 0; 1; 97; 0] <> Ok (k, r)) /\
  (forall k r, parse_with_version p V3_1_1 [0xA2; 5; 0; 1; 0; 1; 97] <> Ok (k, r)).
Proof.
  assert (Ha : string_field [0; 1; 97] [97]) by (apply string_iff; split; [apply wf_str_by; reflexivity|reflexivity]).
  assert (H1 : int2 [0; 1] 1) by (exists 0, 1; repeat split).
  split; [|split; [|split; [|split; [|split]]]].
  - exists 0, [0; 1; 97], [], [], [0; 104]. split; [apply (short_frame 0x30 [0; 1; 97; 0; 104]); reflexivity|].
    split; [left; reflexivity|]. split; [exact Ha|]. split; [cbn; auto|]. split; [cbn; auto|]. split; [reflexivity|].
    repeat constructor; unfold is_byte; lia.
  - exists [0; 1], [], [0; 1; 97; 0]. split; [apply (short_frame 0x82 [0; 1; 0; 1; 97; 0]); reflexivity|].
    split; [exact H1|]. split; [cbn; auto|]. split; [|discriminate].
    apply (many_cons _ _ _ [0; 1; 97; 0] []); [|constructor]. exists [0; 1; 97], 0. split; [reflexivity|]. split; [exact Ha|].
    exists 0, 0. split; [left; reflexivity|]. split; [left; reflexivity|]. split; [reflexivity|lia].
  - exists [0; 1], [], [0; 1; 97]. split; [apply (short_frame 0xA2 [0; 1; 0; 1; 97]); reflexivity|].
    split; [exact H1|]. split; [cbn; auto|]. split; [|discriminate].
    apply (many_cons _ _ _ [0; 1; 97] []); [exact Ha|constructor].
  - eexists. split; [destruct p; vm_compute; reflexivity|]. cbn. discriminate.
  - intros k r. destruct p; vm_compute; discriminate.
  - intros k r. destruct p; vm_compute; discriminate.
Qed.
Print Assumptions C95_version_3_refuted.

(** ... nor a PUBLISH with several subscription identifiers, which the standard allows: if it is accepted at all, the
    payload that is published runs on into the packet that follows. *)
Theorem C95_several_identifiers_refuted p dup qos q retain topic t id l ps d bs r b r' :
  frame (0x30 + 8 * bit dup + 2 * q + bit retain) (topic ++ id ++ ps ++ d) bs -> qos_bits qos q -> string_field topic t ->
  match qos with AtMostOnce => id = [] | _ => exists i, int2 id i end ->
  section l ps -> Forall publish_has l -> ~ once l ->
  parse_with_version p V5 (bs ++ r) = Ok (Publish b, r') ->
  exists e, e <> [] /\ r = e ++ r' /\ pb_payload b = Some (d ++ e).
Proof. exact (repeated_takes_more p dup qos q retain topic t id l ps d bs r b r'). Qed.
Print Assumptions C95_several_identifiers_refuted.
Definition ex_two_ids : bytes := [0x30; 9; 0; 1; 97; 4; 0x0B; 1; 0x0B; 2; 104].
Example C95_two_ids_ex :
  frame (0x30 + 8 * bit false + 2 * 0 + bit false) ([0; 1; 97] ++ [] ++ [4; 0x0B; 1; 0x0B; 2] ++ [104]) ex_two_ids /\
  string_field [0; 1; 97] [97] /\
  section [PSubscriptionIdentifier 1; PSubscriptionIdentifier 2] [4; 0x0B; 1; 0x0B; 2] /\
  Forall publish_has [PSubscriptionIdentifier 1; PSubscriptionIdentifier 2] /\
  ~ once [PSubscriptionIdentifier 1; PSubscriptionIdentifier 2] /\
  (forall p, parse_with_version p V5 ex_two_ids = Err (EReason MalformedPacket)) /\
  forall p, exists b, parse_with_version p V5 (ex_two_ids ++ [0xC0; 0]) = Ok (Publish b, []) /\ pb_payload b = Some [104; 0xC0; 0].
Proof.
  split; [apply (short_frame 0x30 [0; 1; 97; 4; 0x0B; 1; 0x0B; 2; 104]); reflexivity|].
  split; [apply string_iff; split; [apply wf_str_by; reflexivity|reflexivity]|].
  split; [apply section_iff; split; [repeat constructor; vm_compute; intuition congruence|split; [vm_compute; discriminate|reflexivity]]|].
  split; [repeat constructor; cbn; tauto|].
  split; [intros Ho; inv Ho; cbn in *; tauto|].
  split; [intros []; reflexivity|]. intros p. eexists. split; [destruct p; vm_compute; reflexivity|reflexivity].
Qed.

(** ** C96: everything else is refused *)
(** What is accepted is a packet of the standard but for the liberties listed in [lenient]. *)
Theorem C96_only_packets_accepted_partial p v bs k r :
  is_bytes bs -> blen bs < two64 -> parse_with_version p v bs = Ok (k, r) -> exists x, bs = x ++ r /\ lenient v k x.
Proof. exact (packet_accept p v bs k r). Qed.
Print Assumptions C96_only_packets_accepted_partial.
Example C96_ex : is_bytes (ex_publish_bytes ++ [7]) /\ parse_with_version Release V5 (ex_publish_bytes ++ [7]) = Ok (ex_publish, [7]).
Proof. split; [repeat constructor; unfold is_byte; lia|vm_compute; reflexivity]. Qed.
(** In particular: strings are UTF-8, ... *)
Theorem C96_strings_are_utf8 p v bs k r :
  is_bytes bs -> blen bs < two64 -> parse_with_version p v bs = Ok (k, r) ->
  match k with
  | Connect c => utf8 (cl_client_id (c_payload c)) /\ owf utf8 (cl_will_topic (c_payload c)) /\ owf utf8 (cl_user_name (c_payload c))
  | Publish b => utf8 (pb_topic b)
  | Subscribe s => Forall (fun fo => utf8 (fst fo)) (sb_payload s)
  | Unsubscribe s => Forall utf8 (us_payload s)
  | _ => True
  end.
Proof.
  intros Hb Hl H. destruct (packet_accept p v bs k r Hb Hl H) as (x & _ & Hx).
  assert (Hs : forall y s, string_field y s -> utf8 s) by (intros y s (l & _ & _ & Hu); exact Hu).
  assert (Ho : forall b o y, optional b string_field o y -> owf utf8 o).
  { intros b o y. destruct b; cbn; [intros (s & -> & Hy); exact (Hs _ _ Hy)|intros [-> _]; exact I]. }
  destruct k; try exact I; cbn [lenient] in Hx.
  - destruct Hx as (h & m & name & flags & ka & ps & pl & _ & _ & _ & _ & _ & _ & Hp).
    destruct Hp as (id & wp & wt & wd & u & pw & _ & H1 & _ & H2 & _ & H3 & _). repeat split; eauto.
  - destruct Hx as (m & q & topic & id & ps & ps' & d & _ & _ & H1 & _). eauto.
  - destruct Hx as (h & m & id & ps & fs & _ & _ & _ & _ & [Hu|[_ ->]]); [|constructor].
    induction Hu as [|n a l y bs' _ (f & o & _ & Hf & _) _ IH]; constructor; eauto.
  - destruct Hx as (h & m & id & ps & fs & _ & _ & _ & _ & [Hu|[_ ->]]); [|constructor].
    induction Hu as [|n a l y bs' _ Hf _ IH]; constructor; eauto.
Qed.
Print Assumptions C96_strings_are_utf8.
(** ... there is no QoS 3 and no retain handling 3. *)
Theorem C96_no_invalid_options p v bs k r :
  is_bytes bs -> blen bs < two64 -> parse_with_version p v bs = Ok (k, r) ->
  match k with
  | Connect c => cf_will_qos (c_flags c) <> QInvalid
  | Publish b => pb_qos b <> QInvalid /\ (pb_qos b = AtMostOnce <-> pb_packet_id b = None)
  | Subscribe s => Forall (fun fo => so_qos (snd fo) <> QInvalid /\ so_retain_handling (snd fo) <> RInvalid) (sb_payload s)
  | _ => True
  end.
Proof.
  intros Hb Hl H. destruct (packet_accept p v bs k r Hb Hl H) as (x & _ & Hx).
  assert (Hq : forall q n, qos_bits q n -> q <> QInvalid) by (intros q n [E|[E|[E|[]]]]; injection E as <- _; discriminate).
  destruct k; try exact I; cbn [lenient] in Hx.
  - destruct Hx as (h & m & name & flags & ka & ps & pl & _ & _ & _ & (q & _ & _ & Hf) & _).
    destruct (cf_will_flag (c_flags c)); [exact (Hq _ _ Hf)|rewrite Hf; discriminate].
  - destruct Hx as (m & q & topic & id & ps & ps' & d & _ & H1 & _ & H2 & _). split; [exact (Hq _ _ H1)|].
    destruct (pb_qos b); [destruct H2 as [_ ->]; tauto| | |]; destruct H2 as (i & _ & ->); split; discriminate.
  - destruct Hx as (h & m & id & ps & fs & _ & _ & _ & _ & [Hu|[_ ->]]); [|constructor].
    induction Hu as [|n a l y bs' _ (f & o & _ & _ & (q & t & H1 & H2 & _)) _ IH]; constructor; auto.
    split; [exact (Hq _ _ H1)|]. destruct H2 as [E|[E|[E|[]]]]; injection E as <- _; discriminate.
Qed.
Print Assumptions C96_no_invalid_options.
(** The liberties are taken: none of these byte strings begins a packet of the standard, and all are accepted. *)
Theorem C96_malformed_packets_refuted : Forall (fun bs => (forall k, ~ wire V5 k bs) /\ forall p, exists k r, parse_with_version p V5 (bs ++ [1; 1]) = Ok (k, r))
  [ [0x41; 2; 0; 1];                                 (* PUBACK, reserved flags *)
    [0x80; 7; 0; 1; 0; 0; 1; 97; 0];                 (* SUBSCRIBE, reserved flags *)
    [0x40; 0x82; 0; 0; 1];                           (* PUBACK, remaining length in two bytes *)
    [0x40; 6; 0; 1; 0; 0; 9; 9];                     (* PUBACK, two bytes too many *)
    [0x30; 9; 0; 1; 97; 4; 1; 0; 1; 1; 120; 121]     (* PUBLISH, payload format indicator twice *) ].
Proof. exact not_refused. Qed.
Print Assumptions C96_malformed_packets_refuted.
(** Nor are the values looked at that the standard forbids: the packet identifier 0, a repetition at QoS 0, a topic
    with a wildcard, the topic alias 0, the subscription identifier 0, a receive maximum of 0. *)
Definition forbidden : list (packet * bytes) :=
  [ (PubAck (Mk_ack_packet 0 Success (Some (ack_says []))), [0x40; 4; 0; 0; 0; 0]);
    (Publish (Mk_publish_packet true AtMostOnce false [97] None (Some publish_props_default) (Some [])), [0x38; 4; 0; 1; 97; 0]);
    (Publish (Mk_publish_packet false AtMostOnce false [35] None (Some publish_props_default) (Some [])), [0x30; 4; 0; 1; 35; 0]);
    (Publish (Mk_publish_packet false AtMostOnce false [97] None
        (Some (Mk_publish_props None None (Some 0) None None None None None)) (Some [])), [0x30; 7; 0; 1; 97; 3; 0x23; 0; 0]);
    (Subscribe (Mk_subscribe_packet 1 (Some (Mk_subscribe_props (Some 0) None)) [([97], Mk_sub_options AtMostOnce false false SendRetained)]),
      [0x82; 9; 0; 1; 2; 0x0B; 0; 0; 1; 97; 0]);
    (Connect (Mk_connect_packet V5 (Mk_connect_flags false false false AtMostOnce false true) 60
        (Some (Mk_connect_props None (Some 0) None None None None None None None)) (Mk_connect_payload [97] None None None None None)),
      [0x10; 17; 0; 4; 77; 81; 84; 84; 5; 2; 0; 60; 3; 0x21; 0; 0; 0; 1; 97]) ].
Theorem C96_forbidden_values_refuted : Forall (fun kb => wire V5 (fst kb) (snd kb) /\ ~ legal (fst kb) /\
  forall p, parse_with_version p V5 (snd kb) = Ok (fst kb, [])) forbidden.
Proof.
  unfold forbidden. repeat apply Forall_cons; try apply Forall_nil; cbn [fst snd];
    (split; [|split; [|intros p; destruct p; vm_compute; reflexivity]]);
    try (match goal with |- wire V5 ?k _ => refine (packet_conform k _ _ _ _ _); [vm_compute; reflexivity|vm_compute; discriminate|concrete|concrete] end).
  - intros H. apply H. reflexivity.
  - intros [H _]. discriminate (H eq_refl).
  - intros (_ & _ & H & _). apply H. left. reflexivity.
  - intros (_ & _ & _ & _ & H). inv H. apply H2. reflexivity.
  - intros [_ H]. inv H. apply H2. reflexivity.
  - intros [H _]. inv H. apply H2. reflexivity.
Qed.
Print Assumptions C96_forbidden_values_refuted.
