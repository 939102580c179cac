(** Properties C01-C18: the wire format, the parser and the framing.
    Every theorem is followed by a concrete case meeting its hypotheses. *)
From Verif Require Import Base Utf8 Codec SpecCodec Property SpecProperty PacketProps Packets
  SpecPackets Frame Tac CodecFacts PropertyFacts PacketPropsFacts PacketsFacts PacketsRoundtrip
  ParseFacts PacketsDefects FrameFacts WireFacts RefuseFacts.

(** ** C01 *)
Theorem C01_vbi_round_trip p n rest : n <= 268435455 ->
  vbi_dec p (vbi_enc n ++ rest) = Ok (n, rest) /\
  1 <= blen (vbi_enc n) <= 4 /\
  vbi_denotes (vbi_enc n) n /\
  (forall bs, vbi_denotes bs n -> blen (vbi_enc n) <= blen bs) /\
  vbi_size n = Ok (blen (vbi_enc n)).
Proof.
  exact (fun H => conj (vbi_roundtrip p n rest H) (conj (vbi_enc_len n H) (conj (vbi_enc_denotes n H)
    (conj (fun bs => vbi_enc_minimal n bs H) (vbi_size_spec n H))))).
Qed.
Print Assumptions C01_vbi_round_trip.
Example C01_ex : vbi_enc 268435455 = [255; 255; 255; 127] /\ vbi_dec Debug ([255; 255; 255; 127] ++ [9]) = Ok (268435455, [9]).
Proof. vm_compute. auto. Qed.

(** ** C02: in a release build decoding is total and safe; a debug build panics on
    exactly the five-byte inputs described by the last theorem. *)
Theorem C02_vbi_decode_safe_partial p bs : is_bytes bs ->
  match vbi_dec p bs with
  | Ok (n, r) => exists pre, bs = pre ++ r /\ vbi_denotes pre n /\ 1 <= blen pre <= 4 /\ n <= 268435455
  | Err e => e = PacketIncomplete \/ e = EReason MalformedPacket
  | Panic => p = Debug
  end.
Proof. exact (vbi_total p bs). Qed.
Print Assumptions C02_vbi_decode_safe_partial.
Theorem C02_vbi_debug_panics_exactly bs : is_bytes bs ->
  (vbi_dec Debug bs = Panic <->
   exists a b c d e r, bs = a :: b :: c :: d :: e :: r /\
     128 <= a /\ 128 <= b /\ 128 <= c /\ 128 <= d /\ 16 <= e mod 128).
Proof. exact (vbi_debug_panic bs). Qed.
Print Assumptions C02_vbi_debug_panics_exactly.
Theorem C02_vbi_decode_safe_refuted : exists bs, is_bytes bs /\ vbi_dec Debug bs = Panic.
Proof. exists [255; 255; 255; 255; 127]. split; [repeat constructor; unfold is_byte; lia|vm_compute; reflexivity]. Qed.
Print Assumptions C02_vbi_decode_safe_refuted.
Example C02_ex : vbi_dec Release [255; 255; 255; 255; 127] = Err (EReason MalformedPacket)
  /\ vbi_dec Release [128; 128] = Err PacketIncomplete.
Proof. vm_compute. auto. Qed.

(** ** C03: overlong encodings are accepted; among encodings of one length there is no
    ambiguity. *)
Theorem C03_vbi_canonical_refuted : exists a b n,
  a <> b /\ vbi_dec Release a = Ok (n, []) /\ vbi_dec Release b = Ok (n, []).
Proof. exists [5], [133; 0], 5. vm_compute. repeat split; discriminate. Qed.
Print Assumptions C03_vbi_canonical_refuted.
Theorem C03_vbi_canonical_partial p a b n : is_bytes a -> is_bytes b ->
  vbi_dec p a = Ok (n, []) -> vbi_dec p b = Ok (n, []) -> blen a = blen b -> a = b.
Proof.
  intros Ha Hb H1 H2 Hl. destruct (vbi_dec_ok _ _ _ _ Ha H1) as (x & -> & Hx & _).
  destruct (vbi_dec_ok _ _ _ _ Hb H2) as (y & -> & Hy & _). rewrite !app_nil_r in *.
  eapply vbi_denotes_unique; eassumption.
Qed.
Print Assumptions C03_vbi_canonical_partial.
Theorem C03_every_overlong_form_accepted p pre n rest :
  vbi_denotes pre n -> blen pre <= 4 -> is_bytes rest -> vbi_dec p (pre ++ rest) = Ok (n, rest).
Proof. exact (vbi_dec_denotes p pre n rest). Qed.
Print Assumptions C03_every_overlong_form_accepted.

(** ** C04 *)
Theorem C04_string_binary_round_trip s d rest :
  utf8 s -> blen s <= 65535 -> blen d <= 65535 ->
  str_dec (str_enc s ++ rest) = Ok (s, rest) /\ bin_dec (bin_enc d ++ rest) = Ok (d, rest).
Proof.
  intros H1 H2 H3. split; [apply str_rt; split; assumption|apply bin_roundtrip; lia].
Qed.
Print Assumptions C04_string_binary_round_trip.
(** Beyond the length field's range the encoder writes bytes that never decode to the
    value it was given. *)
Theorem C04_too_long_is_corrupted s d rest r :
  is_bytes (str_enc s ++ rest) -> is_bytes (bin_enc d ++ rest) -> 65536 <= blen s -> 65536 <= blen d ->
  str_dec (str_enc s ++ rest) <> Ok (s, r) /\ bin_dec (bin_enc d ++ rest) <> Ok (d, r).
Proof.
  intros Hs Hd H1 H2. split; intros H.
  - apply str_dec_len in H; [lia|assumption].
  - apply bin_dec_len in H; [lia|assumption].
Qed.
Print Assumptions C04_too_long_is_corrupted.
Example C04_ex : str_enc [0xC3; 0xA9] = [0; 2; 0xC3; 0xA9] /\ utf8 [0xC3; 0xA9].
Proof. split; [reflexivity|]. exists [233]. split; [repeat constructor; left; lia|reflexivity]. Qed.

(** ** C05 *)
Theorem C05_strings_are_utf8 bs s r :
  str_dec bs = Ok (s, r) <->
  exists hi lo, bs = hi :: lo :: s ++ r /\ hi * 256 + lo = blen s /\ utf8 s.
Proof. exact (str_dec_char bs s r). Qed.
Print Assumptions C05_strings_are_utf8.
Theorem C05_otherwise_reported bs :
  match str_dec bs with
  | Ok _ => True
  | Err e => e = PacketIncomplete \/ e = EReason MalformedPacket
  | Panic => False
  end.
Proof. exact (str_dec_total bs). Qed.
Print Assumptions C05_otherwise_reported.
Example C05_ex : str_dec [0; 3; 0xED; 0xA0; 0x80] = Err (EReason MalformedPacket)
  /\ str_dec [0; 2; 0xC0; 0x80] = Err (EReason MalformedPacket)
  /\ str_dec [0; 3; 0xE2; 0x82; 0xAC; 7] = Ok ([0xE2; 0x82; 0xAC], [7]).
Proof. vm_compute. auto. Qed.

(** ** C06 *)
Theorem C06_properties_round_trip_partial p q rest :
  wf_prop q -> (forall v, q <> PRequestResponseInformation v) ->
  prop_dec p (prop_enc q ++ rest) = Ok (q, rest).
Proof. intros Hw Hq. apply prop_roundtrip; [exact Hw|]. destruct q; try exact I. exfalso. eapply Hq. reflexivity. Qed.
Print Assumptions C06_properties_round_trip_partial.
Theorem C06_properties_round_trip_refuted : exists q, wf_prop q /\ forall p rest,
  prop_dec p (prop_enc q ++ rest) <> Ok (q, rest).
Proof. exists (PRequestResponseInformation 1). split; [cbn; lia|]. intros p rest. rewrite prop_rri_swapped. discriminate. Qed.
Print Assumptions C06_properties_round_trip_refuted.
Theorem C06_request_response_information_becomes_problem_information p v rest :
  prop_dec p (prop_enc (PRequestResponseInformation v) ++ rest) = Ok (PRequestProblemInformation v, rest).
Proof. exact (prop_rri_swapped p v rest). Qed.
Print Assumptions C06_request_response_information_becomes_problem_information.
Theorem C06_connect_never_carries_request_response_information p v bs c a r :
  parse_with_version p v bs = Ok (Connect c, r) -> c_properties c = Some a ->
  cp_request_response_information a = None.
Proof. exact (connect_rri_never p v bs c a r). Qed.
Print Assumptions C06_connect_never_carries_request_response_information.
Example C06_ex : wf_prop (PUserProperty [107] [118]) /\
  prop_dec Release (prop_enc (PUserProperty [107] [118]) ++ [1]) = Ok (PUserProperty [107] [118], [1]).
Proof.
  split; [|reflexivity]. cbn -[wf_str]. split; (split; [apply utf8_valid_iff; reflexivity|vm_compute; discriminate]).
Qed.

(** ** C07 *)
Theorem C07_remaining_length_truthful k bs :
  packet_enc k = Ok bs -> blen bs <= max_frame ->
  exists header len body, bs = header :: len ++ body /\ vbi_denotes len (blen body) /\ blen len <= 4.
Proof. exact (packet_is_frame k bs). Qed.
Print Assumptions C07_remaining_length_truthful.
Theorem C07_encoding_total k : props_fit k -> exists bs, packet_enc k = Ok bs.
Proof. exact (packet_enc_total k). Qed.
Print Assumptions C07_encoding_total.

(** A packet used as an instance below: PUBLISH a/b with payload and a user property. *)
Definition ex_publish : packet :=
  Publish (Mk_publish_packet true AtLeastOnce true [97; 47; 98] (Some 10)
    (Some (Mk_publish_props (Some 1) None None None None (Some [([107], [118])]) None None))
    (Some [104; 105])).
Definition ex_publish_bytes : bytes :=
  [0x3b; 19; 0; 3; 97; 47; 98; 0; 10; 9; 1; 1; 38; 0; 1; 107; 0; 1; 118; 104; 105].
Example C07_ex : packet_enc ex_publish = Ok ex_publish_bytes /\ blen ex_publish_bytes <= max_frame.
Proof. split; [vm_compute; reflexivity|vm_compute; discriminate]. Qed.

(** ** C08 *)
Theorem C08_packets_round_trip_partial p v k bs rest :
  packet_enc k = Ok bs -> blen bs <= max_frame -> wf_packet k -> roundtrippable k -> reads v k ->
  parse_with_version p v (bs ++ rest) = Ok (canon k, rest).
Proof. exact (packet_rt p v k bs rest). Qed.
Print Assumptions C08_packets_round_trip_partial.
Theorem C08_auth_never_round_trips_refuted p v a bs rest :
  packet_enc (Auth a) = Ok bs -> blen bs <= max_frame -> is_bytes (bs ++ rest) ->
  parse_with_version p v (bs ++ rest) <> Ok (Auth a, rest).
Proof. exact (auth_never_rt p v a bs rest). Qed.
Print Assumptions C08_auth_never_round_trips_refuted.
Theorem C08_disconnect_properties_never_round_trip_refuted p v d bs rest :
  packet_enc (Disconnect d) = Ok bs -> blen bs <= max_frame -> is_bytes (bs ++ rest) ->
  oenc disconnect_props_list (d_properties d) <> [] ->
  parse_with_version p v (bs ++ rest) <> Ok (Disconnect d, rest).
Proof. exact (disconnect_never_rt p v d bs rest). Qed.
Print Assumptions C08_disconnect_properties_never_round_trip_refuted.
Theorem C08_ping_leaves_a_byte_refuted p v rest :
  parse_with_version p v (pingreq_enc ++ rest) = Ok (PingReq, 0 :: rest) /\
  parse_with_version p v (pingresp_enc ++ rest) = Ok (PingResp, 0 :: rest).
Proof. split; reflexivity. Qed.
Print Assumptions C08_ping_leaves_a_byte_refuted.
Example C08_ex : wf_packet ex_publish /\ roundtrippable ex_publish /\ reads V5 ex_publish /\
  parse_with_version Debug V5 (ex_publish_bytes ++ [1; 2]) = Ok (ex_publish, [1; 2]).
Proof.
  assert (Hs : forall s, utf8_valid s = true -> (blen s <=? 65535) = true -> wf_str s).
  { intros s A B. split; [apply utf8_valid_iff, A|lia]. }
  split; [|split; [exact I|split; [exact I|vm_compute; reflexivity]]].
  cbn -[wf_str]. split; [discriminate|]. split; [apply Hs; reflexivity|].
  split; [vm_compute; reflexivity|]. split; [|discriminate].
  cbn -[wf_str]. constructor; [vm_compute; reflexivity|]. constructor; [|constructor].
  split; apply Hs; reflexivity.
Qed.
Example C08_auth_ex : exists bs, packet_enc (Auth (Mk_auth_packet ContinueAuthentication
    (Mk_auth_props (Some [80]) None None None))) = Ok bs /\ blen bs <= max_frame /\ is_bytes bs.
Proof. eexists. split; [vm_compute; reflexivity|]. split; [vm_compute; discriminate|]. repeat constructor; unfold is_byte; lia. Qed.

(** ** C09: parsing consumes a prefix of the buffer; for encoder output it is exactly the
    frame; on other well-formed frames it can be more or less. *)
Theorem C09_parse_consumes_prefix_partial p v bs k r :
  is_bytes bs -> parse_with_version p v bs = Ok (k, r) -> exists pre, bs = pre ++ r.
Proof. exact (parse_consumes p v bs k r). Qed.
Print Assumptions C09_parse_consumes_prefix_partial.
Theorem C09_encoder_output_consumed_exactly_partial p k frame rest :
  packet_enc k = Ok frame -> blen frame <= max_frame -> wf_packet k -> roundtrippable k -> reads V5 k ->
  check p (frame ++ rest) = Ok tt /\ exists k', parse p (frame ++ rest) = Ok (k', rest).
Proof.
  intros. split; [apply check_complete; eapply packet_min_frame; eassumption|].
  exists (canon k). apply packet_rt; assumption.
Qed.
Print Assumptions C09_encoder_output_consumed_exactly_partial.
(** A PUBLISH whose properties repeat swallows bytes of the next packet, and a CONNECT
    with trailing bytes leaves them behind. *)
Theorem C09_parse_consumes_one_frame_refuted :
  (exists frame rest k r, is_min_frame frame /\ check Release (frame ++ rest) = Ok tt /\
     parse Release (frame ++ rest) = Ok (k, r) /\ blen r < blen rest) /\
  (exists frame rest k r, is_min_frame frame /\ check Release (frame ++ rest) = Ok tt /\
     parse Release (frame ++ rest) = Ok (k, r) /\ blen rest < blen r).
Proof.
  assert (Hmin : forall len n, n < 128 -> vbi_denotes len n -> 1 <= blen len).
  { intros len n _ H. apply vbi_denotes_nonempty in H. destruct len; [congruence|]. rewrite blen_cons. lia. }
  split.
  - exists [0x30; 10; 0; 1; 97; 4; 1; 0; 1; 1; 120; 121], [0xc0; 0; 0x30; 4].
    eexists. eexists. split; [|split; [vm_compute; reflexivity|split; [vm_compute; reflexivity|vm_compute; reflexivity]]].
    exists 0x30, [10], [0; 1; 97; 4; 1; 0; 1; 1; 120; 121]. repeat split.
    + apply vbi_last. vm_compute. reflexivity.
    + vm_compute. discriminate.
    + intros len' H. apply (Hmin len' 10); [lia|exact H].
  - exists [0x10; 15; 0; 4; 77; 81; 84; 84; 4; 2; 0; 60; 0; 1; 97; 255; 255], [0xc0; 0].
    eexists. eexists. split; [|split; [vm_compute; reflexivity|split; [vm_compute; reflexivity|vm_compute; reflexivity]]].
    exists 0x10, [15], [0; 4; 77; 81; 84; 84; 4; 2; 0; 60; 0; 1; 97; 255; 255]. repeat split.
    + apply vbi_last. vm_compute. reflexivity.
    + vm_compute. discriminate.
    + intros len' H. apply (Hmin len' 15); [lia|exact H].
Qed.
Print Assumptions C09_parse_consumes_one_frame_refuted.

(** ** C10: complete frames that panic the parser exist even in a release build; on all
    others listed by [enough] it is panic free. *)
Theorem C10_parse_panic_free_partial v h len body rest :
  vbi_denotes len (blen body) -> blen len <= 4 -> is_bytes (h :: body ++ rest) ->
  enough (h / 16) (blen body) = true ->
  parse_with_version Release v (h :: len ++ body ++ rest) <> Panic.
Proof. exact (frame_no_panic v h len body rest). Qed.
Print Assumptions C10_parse_panic_free_partial.
Theorem C10_parse_panic_free_any_bytes_partial v bs :
  is_bytes bs -> (forall h t, bs = h :: t -> unchecked_type (h / 16) = false) ->
  parse_with_version Release v bs <> Panic.
Proof. exact (parse_no_panic_release v bs). Qed.
Print Assumptions C10_parse_panic_free_any_bytes_partial.
(** Exactly which complete frames panic a release build: a CONNACK that ends, with the buffer, before its reason; an acknowledgement of
    fewer than two bytes with exactly two bytes left in the buffer; an AUTH that is empty and ends the buffer; and a SUBSCRIBE that ends
    with the buffer before the options of its last filter, so that one more byte would complete it. *)
Theorem C10_panics_exactly_partial v h len body rest :
  vbi_denotes len (blen body) -> blen len <= 4 -> is_bytes (h :: body ++ rest) ->
  (parse_with_version Release v (h :: len ++ body ++ rest) = Panic <->
   (h / 16 = 2 /\ (body ++ rest = [] \/ exists b, body ++ rest = [b] /\ b <= 1)) \/
   (4 <= h / 16 <= 7 /\ blen body < 2 /\ blen (body ++ rest) = 2) \/
   (h / 16 = 8 /\ exists s, parse_with_version Release v (h :: len ++ body ++ rest ++ [0]) = Ok (Subscribe s, [])) \/
   (h / 16 = 15 /\ h mod 16 = 0 /\ body ++ rest = [])).
Proof. exact (frame_panics v h len body rest). Qed.
Print Assumptions C10_panics_exactly_partial.
Theorem C10_parse_panic_free_refuted :
  exists connack puback subscribe auth, forall p,
    Forall (fun bs => check p bs = Ok tt /\ parse p bs = Panic) [connack; puback; subscribe; auth].
Proof.
  exists [0x20; 0], [0x40; 0; 0; 1], [0x82; 6; 0; 1; 0; 0; 1; 97], [0xf0; 0].
  intros p. destruct p; repeat constructor; vm_compute; reflexivity.
Qed.
Print Assumptions C10_parse_panic_free_refuted.
Example C10_panics_ex : exists s, parse Release ([0x82; 6; 0; 1; 0; 0; 1; 97] ++ [0]) = Ok (Subscribe s, [])
  /\ parse Release [0x82; 6; 0; 1; 0; 0; 1; 97] = Panic /\ parse Release [0x82; 6; 0; 1; 0; 0; 1; 97; 0xc0; 0] <> Panic.
Proof. eexists. split; [vm_compute; reflexivity|]. split; [vm_compute; reflexivity|vm_compute; discriminate]. Qed.
Example C10_ex : enough (0x40 / 16) 2 = true /\ enough (0xe0 / 16) 0 = true /\ enough (0x30 / 16) 0 = true.
Proof. vm_compute. auto. Qed.

(** ** C11 *)
Theorem C11_reason_codes_partial r rest :
  reason_dec (reason_enc r ++ rest) =
  Ok (match r with NormalDisconnection | GrantedQoS0 => Success | _ => r end, rest).
Proof. exact (reason_rt r rest). Qed.
Print Assumptions C11_reason_codes_partial.
Theorem C11_only_codes_accepted c rest r rest' : c < 256 ->
  reason_dec (c :: rest) = Ok (r, rest') -> get_code r = c /\ rest' = rest.
Proof.
  intros Hc H. cbn in H. destruct (reason_of_code c) as [x|] eqn:E; [|discriminate]. inv H.
  split; [apply reason_code_sound; assumption|reflexivity].
Qed.
Print Assumptions C11_only_codes_accepted.
Theorem C11_reason_codes_refuted : exists r, forall rest, reason_dec (reason_enc r ++ rest) <> Ok (r, rest).
Proof. exists NormalDisconnection. discriminate. Qed.
Print Assumptions C11_reason_codes_refuted.

(** ** C12 *)
Theorem C12_connect_flags_faithful b : b < 256 ->
  match connect_flags_of_byte b with
  | Ok f =>
      N.testbit b 0 = false /\ ~ (N.testbit b 2 = true /\ (b / 8) mod 4 = 3) /\
      cf_clean_start f = N.testbit b 1 /\ cf_will_flag f = N.testbit b 2 /\
      (N.testbit b 2 = true -> qos_u8 (cf_will_qos f) = (b / 8) mod 4) /\
      cf_will_retain f = N.testbit b 5 /\ cf_password f = N.testbit b 6 /\
      cf_user_name f = N.testbit b 7 /\
      connect_flags_byte f = if N.testbit b 2 then b else b - N.land b 24
  | Err e => e = EReason MalformedPacket /\
             (N.testbit b 0 = true \/ (N.testbit b 2 = true /\ (b / 8) mod 4 = 3))
  | Panic => False
  end.
Proof. exact (flags_dec_spec b). Qed.
Print Assumptions C12_connect_flags_faithful.
Theorem C12_connect_flags_round_trip f rest :
  (cf_will_flag f = true -> cf_will_qos f <> QInvalid) ->
  connect_flags_dec ([connect_flags_byte f] ++ rest) =
  Ok (Mk_connect_flags (cf_user_name f) (cf_password f) (cf_will_retain f)
       (if cf_will_flag f then cf_will_qos f else AtMostOnce) (cf_will_flag f) (cf_clean_start f), rest).
Proof. exact (connect_flags_rt f rest). Qed.
Print Assumptions C12_connect_flags_round_trip.
Example C12_ex : connect_flags_of_byte 0xEE = Ok (Mk_connect_flags true true true AtLeastOnce true true).
Proof. vm_compute. reflexivity. Qed.

(** ** C13 *)
Theorem C13_version_negotiation name level v :
  from_name_and_level name level = Some v <->
  match v with
  | V3_1 => name = [77; 81; 73; 115; 100; 112] /\ level = 3
  | V3_1_1 => name = [77; 81; 84; 84] /\ level = 4
  | V5 => name = [77; 81; 84; 84] /\ level = 5
  end.
Proof. exact (version_spec name level v). Qed.
Print Assumptions C13_version_negotiation.
Theorem C13_connect_version p bs r name level len n :
  wf_str name -> is_bytes bs -> vbi_denotes len n -> blen len <= 4 -> is_bytes r ->
  bs = 16 :: len ++ str_enc name ++ level :: r ->
  (from_name_and_level name level = None -> parse p bs = Err (EReason UnsupportedProtocolVersion)) /\
  (forall c r', parse p bs = Ok (Connect c, r') ->
     from_name_and_level name level = Some (c_protocol_version c)).
Proof. intros. eapply connect_version; eassumption. Qed.
Print Assumptions C13_connect_version.
Example C13_ex : parse Release [16; 7; 0; 4; 77; 81; 84; 84; 3] = Err (EReason UnsupportedProtocolVersion).
Proof. vm_compute. reflexivity. Qed.

(** ** C14 *)
Theorem C14_v311_publish_never_understood_refuted p v h len topic pid payload rest b r :
  48 <= h < 64 -> vbi_denotes len (blen (str_enc topic ++ pid ++ payload)) -> blen len <= 4 ->
  wf_str topic -> is_bytes (pid ++ payload ++ rest) ->
  blen pid = (if qos_eqb (qos_from (N.land h 6 / 2)) AtMostOnce then 0 else 2) ->
  parse_with_version p v (h :: len ++ str_enc topic ++ pid ++ payload ++ rest) = Ok (Publish b, r) ->
  pb_payload b <> Some payload.
Proof. exact (publish_v311_never p v h len topic pid payload rest b r). Qed.
Print Assumptions C14_v311_publish_never_understood_refuted.
(** A 3.1.1 SUBSCRIBE to "a" with QoS 0, and the matching UNSUBSCRIBE. *)
Theorem C14_v311_packets_refuted : exists subscribe unsubscribe, forall p,
  check p subscribe = Ok tt /\ check p unsubscribe = Ok tt /\
  (forall k r, parse p subscribe <> Ok (k, r)) /\ (forall k r, parse p unsubscribe <> Ok (k, r)).
Proof.
  exists [0x82; 6; 0; 1; 0; 1; 97; 0], [0xa2; 5; 0; 1; 0; 1; 97].
  intros p. destruct p; repeat split; try (vm_compute; reflexivity); intros k r; vm_compute; discriminate.
Qed.
Print Assumptions C14_v311_packets_refuted.
(** What does work for 3.1.1: CONNECT, the acknowledgements, DISCONNECT (and the client's
    CONNACK, SUBACK and UNSUBACK). *)
Theorem C14_v311_packets_partial p k bs rest :
  packet_enc k = Ok bs -> blen bs <= max_frame -> wf_packet k ->
  match k with
  | Connect c => c_protocol_version c = V3_1_1 \/ c_protocol_version c = V3_1
  | PubAck a | PubRec a | PubRel a | PubComp a => ak_reason a = Success /\ ak_properties a = None
  | ConnAck c => ca_protocol_version c = V3_1_1
  | SubAck s => sa_protocol_version s = V3_1_1
  | UnsubAck s => ua_protocol_version s = V3_1_1
  | _ => False
  end -> roundtrippable k ->
  parse_with_version p V3_1_1 (bs ++ rest) = Ok (canon k, rest).
Proof.
  intros He Hm Hw Hk Hr. apply packet_rt; try assumption.
  destruct k; try exact I; cbn in *; rewrite Hk; reflexivity.
Qed.
Print Assumptions C14_v311_packets_partial.
Theorem C14_v311_disconnect_partial p v r :
  parse_with_version p v (0xe0 :: 0 :: r) =
  Ok (Disconnect (Mk_disconnect_packet NormalDisconnection None), r).
Proof. exact (disconnect_v311 p v r). Qed.
Print Assumptions C14_v311_disconnect_partial.
Example C14_ex : parse Release [0x30; 5; 0; 1; 97; 0; 104] =
  Ok (Publish (Mk_publish_packet false AtMostOnce false [97] None (Some publish_props_default) (Some [104])), []).
Proof. vm_compute. reflexivity. Qed.

(** ** C15 *)
Theorem C15_server_framing_partial p packets chunks :
  Forall (fun kb => sent (fst kb) (snd kb) /\ reads V5 (fst kb)) packets ->
  Forall (fun c => c <> []) chunks ->
  concat chunks = concat (map snd packets) ->
  server_reads p [] chunks (map (fun kb => canon (fst kb)) packets) RClosed.
Proof. exact (server_framing p packets chunks). Qed.
Print Assumptions C15_server_framing_partial.
Theorem C15_server_framing_truncated_partial p packets k bs pre suf chunks :
  Forall (fun kb => sent (fst kb) (snd kb) /\ reads V5 (fst kb)) packets ->
  sent k bs -> bs = pre ++ suf -> pre <> [] -> suf <> [] ->
  Forall (fun c => c <> []) chunks ->
  concat chunks = concat (map snd packets) ++ pre ->
  server_reads p [] chunks (map (fun kb => canon (fst kb)) packets) (RError (EReason NormalDisconnection)).
Proof. exact (server_framing_truncated p packets k bs pre suf chunks). Qed.
Print Assumptions C15_server_framing_truncated_partial.
Theorem C15_server_reads_deterministic p buf chunks ks out ks' out' :
  server_reads p buf chunks ks out -> server_reads p buf chunks ks' out' -> ks = ks' /\ out = out'.
Proof. intros H. exact (server_reads_det p buf chunks ks out H ks' out'). Qed.
Print Assumptions C15_server_reads_deterministic.
Example C15_ex : server_reads Debug [] [[0x3b]; [19; 0; 3; 97; 47; 98; 0; 10; 9; 1; 1; 38; 0; 1];
    [107; 0; 1; 118; 104; 105; 0x3b; 19; 0; 3; 97; 47; 98; 0; 10; 9; 1; 1; 38; 0; 1; 107; 0; 1; 118; 104]; [105]]
  [ex_publish; ex_publish] RClosed.
Proof.
  eapply sreads_packet; [vm_compute; reflexivity|].
  eapply sreads_packet; [vm_compute; reflexivity|].
  eapply sreads_end; [vm_compute; reflexivity|discriminate].
Qed.
(** The hypothesis on packets cannot be dropped: with a repeated property the result
    depends on how the same bytes are split. *)
Theorem C15_server_framing_refuted : exists chunks1 chunks2 ks1 o1 ks2 o2,
  concat chunks1 = concat chunks2 /\ Forall (fun c => c <> []) chunks1 /\ Forall (fun c => c <> []) chunks2 /\
  server_reads Release [] chunks1 ks1 o1 /\ server_reads Release [] chunks2 ks2 o2 /\ ks1 <> ks2.
Proof.
  exists [[0x30; 8; 0; 1; 97; 4; 1; 0; 1; 1]; [0xc0; 0]],
         [[0x30; 8; 0; 1; 97; 4; 1; 0; 1; 1; 0xc0; 0]].
  do 4 eexists. split; [reflexivity|]. split; [repeat constructor; discriminate|].
  split; [repeat constructor; discriminate|].
  split; [|split].
  - eapply sreads_end; [vm_compute; reflexivity|discriminate].
  - eapply sreads_packet; [vm_compute; reflexivity|].
    eapply sreads_end; [vm_compute; reflexivity|discriminate].
  - discriminate.
Qed.
Print Assumptions C15_server_framing_refuted.

(** ** C16: after a PINGREQ nothing the client sends is ever read. *)
Theorem C16_ping_kills_connection_refuted p before rest chunks :
  Forall (fun kb => sent (fst kb) (snd kb) /\ reads V5 (fst kb)) before ->
  Forall (fun c => c <> []) chunks ->
  concat chunks = concat (map snd before) ++ pingreq_enc ++ rest ->
  exists out, server_reads p [] chunks (map (fun kb => canon (fst kb)) before ++ [PingReq]) out /\
    out <> RClosed /\ forall k, out <> RPacket k.
Proof. exact (ping_kills_stream p before rest chunks). Qed.
Print Assumptions C16_ping_kills_connection_refuted.
Example C16_ex : server_reads Release [] [[0xc0; 0]; ex_publish_bytes] [PingReq] (RError (EReason NormalDisconnection)).
Proof.
  eapply sreads_packet; [vm_compute; reflexivity|].
  eapply sreads_end; [vm_compute; reflexivity|discriminate].
Qed.

(** ** C17 *)
Theorem C17_client_framing_partial p v groups :
  Forall (fun kb => client_sent (fst kb) (snd kb) /\ reads v (fst kb)) (concat groups) ->
  Forall (fun g => g <> []) groups ->
  client_reads p v [] (map (fun g => concat (map snd g)) groups)
    (map (fun kb => canon (fst kb)) (concat groups)) RClosed.
Proof. exact (client_framing p v groups []). Qed.
Print Assumptions C17_client_framing_partial.
(** A PUBLISH split inside its payload makes the client fail, a CONNACK split after its
    length makes it panic. *)
Theorem C17_client_framing_refuted :
  (exists chunks k bs, sent k bs /\ concat chunks = bs /\
     client_reads Release V5 [] chunks [] (RError (EReason MalformedPacket))) /\
  (exists chunks k bs, sent k bs /\ concat chunks = bs /\
     client_reads Release V5 [] chunks [] RPanic).
Proof.
  split.
  - exists [[0x3b; 19; 0; 3; 97; 47; 98; 0; 10; 9; 1; 1; 38; 0; 1; 107; 0; 1; 118; 104]; [105]], ex_publish, ex_publish_bytes.
    split; [|split; [reflexivity|eapply creads_end; [vm_compute; reflexivity|discriminate]]].
    destruct C07_ex, C08_ex as (? & ? & _). repeat split; try assumption; apply H1.
  - exists [[0x20; 3]; [0; 0; 0]], (ConnAck (Mk_connack_packet V5 false Success None)), [0x20; 3; 0; 0; 0].
    split; [|split; [reflexivity|eapply creads_end; [vm_compute; reflexivity|discriminate]]].
    repeat split. vm_compute. discriminate.
Qed.
Print Assumptions C17_client_framing_refuted.
Example C17_ex : client_reads Debug V5 [] [[0x20; 3; 0; 0; 0; 0xd0; 0]; [0xd0; 0]]
  [ConnAck (Mk_connack_packet V5 false Success (Some connack_props_default)); PingResp; PingResp] RClosed.
Proof.
  do 3 (eapply creads_packet; [vm_compute; reflexivity|]).
  eapply creads_end; [vm_compute; reflexivity|discriminate].
Qed.

(** ** C18 *)
Theorem C18_check_exact p h len n rest :
  vbi_denotes len n -> blen len <= 4 -> (forall len', vbi_denotes len' n -> blen len <= blen len') ->
  (check p (h :: len ++ rest) = Ok tt <-> n <= blen rest) /\
  (check p (h :: len ++ rest) = Err PacketIncomplete <-> blen rest < n).
Proof. exact (check_iff p h len n rest). Qed.
Print Assumptions C18_check_exact.
Theorem C18_check_prefix p frame pre suf rest : is_min_frame frame ->
  check p (frame ++ rest) = Ok tt /\
  (frame = pre ++ suf -> suf <> [] -> check p pre = Err PacketIncomplete).
Proof. intros H. split; [apply check_complete, H|apply check_incomplete, H]. Qed.
Print Assumptions C18_check_prefix.
(** With a length field that is not the shortest, the check succeeds too early. *)
Theorem C18_check_noncanonical_refuted : exists frame pre suf,
  is_frame frame /\ frame = pre ++ suf /\ suf <> [] /\ check Release pre = Ok tt.
Proof.
  exists [0x30; 133; 0; 0; 1; 97; 0; 120], [0x30; 133; 0; 0; 1; 97; 0], [120].
  split; [|split; [reflexivity|split; [discriminate|vm_compute; reflexivity]]].
  exists 0x30, [133; 0], [0; 1; 97; 0; 120]. split; [reflexivity|]. split; [|vm_compute; discriminate].
  change (blen [0; 1; 97; 0; 120]) with ((133 - 128) + 128 * 0). repeat constructor; lia.
Qed.
Print Assumptions C18_check_noncanonical_refuted.
