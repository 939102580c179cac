(** C103: packets are refused for faults of their own, and with the right reason. *)
From Verif Require Import Base Utf8 Codec SpecCodec Tac CodecFacts Property SpecProperty PacketProps Packets SpecPackets PacketsFacts PacketsRoundtrip ParseFacts FrameFacts WireFacts RefuseFacts.

(** Whatever the bytes, a packet is refused as incomplete or malformed, a CONNECT also for its protocol version, and a SUBSCRIBE,
    UNSUBSCRIBE, SUBACK or UNSUBACK also as an error of the protocol. *)
Theorem C103_reasons p v h bs e : parse_with_version p v (h :: bs) = Err e ->
  e = PacketIncomplete \/ e = EReason MalformedPacket \/ (h / 16 = 1 /\ e = EReason UnsupportedProtocolVersion) \/
  (8 <= h / 16 <= 11 /\ e = EReason ProtocolError).
Proof.
  intros H. pose proof (parse_errs p v h bs) as He. rewrite H in He. destruct He as [[->| ->]|[(H1 & ->)|(H1 & ->)]]; auto.
  right. right. right. split; [lia|reflexivity].
Qed.
Print Assumptions C103_reasons.
(** Type 0 and, for DISCONNECT and AUTH, flags other than 0 are malformed whatever follows. *)
Theorem C103_flags p v h bs : h < 256 -> h / 16 = 0 \/ (14 <= h / 16 /\ h mod 16 <> 0) ->
  parse_with_version p v (h :: bs) = Err (EReason MalformedPacket).
Proof.
  intros Hh [H|(H & Hf)]; unfold parse_with_version; [rewrite H; reflexivity|].
  assert (Hm : negb (N.land h 15 =? 0) = true) by (rewrite land_15; apply negb_true_iff; lia).
  assert (E : h / 16 = 14 \/ h / 16 = 15) by (assert (h / 16 < 16) by (apply N.div_lt_upper_bound; lia); lia).
  destruct E as [E|E]; rewrite E; unfold disconnect_dec, auth_dec; cbn [get_u8 bind]; rewrite Hm; reflexivity.
Qed.
Print Assumptions C103_flags.
(** The options of a filter: QoS 3, retain handling 3 or one of the two highest bits are wrong. *)
Definition wrong_options (o : N) : Prop := o mod 4 = 3 \/ 48 <= o.
Lemma options_sweep o : o < 256 -> (wrong_options o /\ sub_options_of_byte o = Err (EReason ProtocolError)) \/ (~ wrong_options o /\ exists x, sub_options_of_byte o = Ok x).
Proof.
  intros H. pose proof (sweep 256 (fun o => match sub_options_of_byte o with Err (EReason ProtocolError) => (o mod 4 =? 3) || (48 <=? o) | Ok _ => negb ((o mod 4 =? 3) || (48 <=? o)) | _ => false end)
    ltac:(vm_compute; reflexivity) o H) as S. cbv beta in S. unfold wrong_options.
  destruct (sub_options_of_byte o) as [x|[| |[]|]|]; try discriminate S; [right|left]; split; eauto; lia.
Qed.
Definition filters_bytes (l : list (bytes * N)) : bytes := flat_map (fun f => str_enc (fst f) ++ [snd f]) l.
Lemma filters_wrong rest : forall l f, Forall (fun f => wf_str (fst f) /\ snd f < 256) l -> Exists (fun f => wrong_options (snd f)) l ->
  (length l <= f)%nat -> payload_loop sub_filter_dec f (blen rest) (filters_bytes l ++ rest) = Err (EReason ProtocolError).
Proof.
  induction l as [|(s, o) l IH]; intros f Hw He Hf; [inversion He|]. inversion Hw as [|? ? (Hs & Ho) Hw']; subst. cbn [fst snd] in *.
  destruct f as [|f]; [cbn in Hf; lia|]. cbn [payload_loop].
  change (filters_bytes ((s, o) :: l)) with ((str_enc s ++ [o]) ++ filters_bytes l). rewrite <- !app_assoc.
  replace (blen rest <? blen (str_enc s ++ [o] ++ filters_bytes l ++ rest)) with true by (rewrite !blen_app, blen_cons; lia).
  unfold sub_filter_dec at 1, sub_options_dec. destruct Hs as (Hu & Hl). apply utf8_valid_iff in Hu. rewrite str_roundtrip by (lia || exact Hu). cbn [bind app get_u8].
  destruct (options_sweep o Ho) as [(_ & ->)|(Hn & x & ->)]; cbn [bind]; [reflexivity|].
  apply Exists_cons in He as [Hx|Hx]; [contradiction|]. cbn [length] in Hf. rewrite IH by (assumption || lia). reflexivity.
Qed.
(** A SUBSCRIBE with wrong options is an error of the protocol, wherever in the packet they are. *)
Theorem C103_options p v h len id filters rest :
  let body := u16_enc id ++ [0] ++ filters_bytes filters in
  vbi_denotes len (blen body) -> blen len <= 4 -> is_bytes (h :: body ++ rest) -> h / 16 = 8 ->
  Forall (fun f => wf_str (fst f)) filters -> Exists (fun f => wrong_options (snd f)) filters ->
  parse_with_version p v (h :: len ++ body ++ rest) = Err (EReason ProtocolError).
Proof.
  intros body Hd Hl Hb Hh Hw He. unfold parse_with_version. rewrite Hh. unfold subscribe_dec. cbn [advance1 bind].
  assert (Hr : is_bytes (body ++ rest)) by now inversion Hb.
  rewrite (vbi_dec_denotes p len _ _ Hd Hl Hr). cbn [bind]. cbv zeta. rewrite usize_sub_body. unfold body. rewrite <- !app_assoc.
  unfold u16_enc. cbn [app u16_dec bind].
  assert (Hf : is_bytes (filters_bytes filters ++ rest)).
  { unfold body in Hr. rewrite <- !app_assoc in Hr. unfold u16_enc in Hr. cbn [app] in Hr. exact (Forall_inv_tail (Forall_inv_tail (Forall_inv_tail Hr))). }
  assert (Hp : props_dec p (EReason MalformedPacket) subscribe_props_step subscribe_props_default (0 :: filters_bytes filters ++ rest)
    = Ok (subscribe_props_default, filters_bytes filters ++ rest)).
  { unfold props_dec. change (0 :: filters_bytes filters ++ rest) with ([0] ++ filters_bytes filters ++ rest).
    rewrite (vbi_dec_denotes p [0] 0 _); [reflexivity|apply vbi_last; lia|rewrite blen_cons, blen_nil; lia|exact Hf]. }
  rewrite Hp. cbn [bind].
  assert (Hne : 0 < blen (filters_bytes filters)).
  { destruct filters as [|f fs]; [inversion He|]. cbn [filters_bytes flat_map]. rewrite !blen_app, blen_cons. lia. }
  replace (blen (filters_bytes filters ++ rest) =? 0) with false by (rewrite blen_app; lia). cbn [bind].
  rewrite filters_wrong; auto.
  - rewrite Forall_forall in *. intros f Hin. split; [now apply Hw|]. apply is_bytes_app in Hf as (Hf & _). unfold is_bytes in Hf. rewrite Forall_forall in Hf.
    apply Hf. unfold filters_bytes. apply in_flat_map. exists f. split; [exact Hin|]. apply in_or_app. right. now left.
  - rewrite app_length. enough (length filters <= length (filters_bytes filters))%nat by lia. clear. induction filters as [|f fs IH]; [cbn; lia|].
    cbn [filters_bytes flat_map length]. fold filters_bytes. rewrite !app_length. cbn [length]. unfold filters_bytes in *. lia.
Qed.
Print Assumptions C103_options.
(** False: the verdict depends on what comes after the packet. A SUBSCRIBE without filters is refused, but accepted if another packet
    follows in the same read; and an acknowledgement that is too short is refused, accepted or panics. *)
Theorem C103_own_faults_refuted : exists frame rest rest' k, is_min_frame frame /\ is_min_frame rest /\ is_min_frame rest' /\
  parse Release frame = Err (EReason ProtocolError) /\ parse Release (frame ++ rest) = Ok (k, rest) /\
  exists ack k' r, is_min_frame ack /\ parse Release ack = Err PacketIncomplete /\ parse Release (ack ++ rest) = Panic /\ parse Release (ack ++ rest') = Ok (k', r).
Proof.
  assert (Hmin : forall h body, blen body < 128 -> is_min_frame (h :: [blen body] ++ body)).
  { intros h body Hs. exists h, [blen body], body. split; [reflexivity|]. split; [now apply vbi_last|]. split; [rewrite blen_cons, blen_nil; lia|].
    intros len' H. apply vbi_denotes_nonempty in H. destruct len'; [congruence|]. rewrite !blen_cons, blen_nil. lia. }
  exists [0x82; 3; 0; 1; 0], [0xc0; 0], [0xc0; 2; 0; 0]. eexists. split; [apply (Hmin 0x82 [0; 1; 0]); reflexivity|].
  split; [apply (Hmin 0xc0 []); reflexivity|]. split; [apply (Hmin 0xc0 [0; 0]); reflexivity|]. split; [vm_compute; reflexivity|]. split; [vm_compute; reflexivity|].
  exists [0x40; 0]. eexists. eexists. split; [apply (Hmin 0x40 []); reflexivity|]. repeat split; vm_compute; reflexivity.
Qed.
Print Assumptions C103_own_faults_refuted.
(** What the encoder writes is judged for itself. *)
Theorem C103_own_faults_partial p k frame rest :
  packet_enc k = Ok frame -> blen frame <= max_frame -> wf_packet k -> roundtrippable k -> reads V5 k ->
  parse p (frame ++ rest) = Ok (canon k, rest).
Proof. intros. apply packet_rt; assumption. Qed.
Print Assumptions C103_own_faults_partial.
Example C103_ex : parse Release [0x82; 13; 0; 1; 0; 0; 1; 97; 1; 0; 1; 98; 3; 0; 0] = Err (EReason ProtocolError)
  /\ filters_bytes [([97], 1); ([98], 3)] = [0; 1; 97; 1; 0; 1; 98; 3] /\ wrong_options 3 /\ parse Release [0xf1; 0] = Err (EReason MalformedPacket).
Proof. split; [vm_compute; reflexivity|]. split; [reflexivity|]. split; [left; reflexivity|vm_compute; reflexivity]. Qed.
