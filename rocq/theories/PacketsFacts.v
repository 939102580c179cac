(** Proofs about Packets.v: framing of encodings, round trips. *)
From Verif Require Import Base Utf8 Codec SpecCodec Property SpecProperty PacketProps Packets SpecPackets
  Tac CodecFacts PropertyFacts PacketPropsFacts.

#[local] Opaque str_enc bin_enc str_size bin_size.

(** ** Sizes and frames *)

Lemma osize_ok {A} (f g : A -> list property) o n :
  (forall a, f a = g a) -> osize f o = Ok n -> n = blen (oenc g o).
Proof.
  intros Hfg. destruct o as [a|]; cbn [osize oenc]; intros H.
  - apply props_size_ok in H. rewrite Hfg in H. exact H.
  - inv H. reflexivity.
Qed.

Lemma vsize_ok n k : vsize n = Ok k -> k = blen (venc n).
Proof. unfold vsize, venc. intros H. apply vbi_size_inv in H. tauto. Qed.

Lemma vec_size_spec {A} (enc : A -> bytes) (sz : A -> N) l :
  (forall a, sz a = blen (enc a)) -> vec_size sz l = blen (vec_enc enc l).
Proof.
  intros H. induction l as [|a l IH]; cbn; [reflexivity|].
  rewrite blen_app, H. unfold vec_size, vec_enc in *. rewrite IH. reflexivity.
Qed.

Lemma blen_opt_str o : blen (opt_enc str_enc o) = osz str_size o.
Proof. destruct o; cbn; [apply blen_str_enc|reflexivity]. Qed.
Lemma blen_opt_bin o : blen (opt_enc bin_enc o) = osz bin_size o.
Proof. destruct o; cbn; [apply blen_bin_enc|reflexivity]. Qed.
Lemma blen_opt_pid o : blen (opt_enc u16_enc o) = pid_size o.
Proof. destruct o; reflexivity. Qed.
Lemma blen_u16 x : blen (u16_enc x) = 2.
Proof. reflexivity. Qed.
Lemma blen_sub_filter f : sub_filter_size f = blen (sub_filter_enc f).
Proof. unfold sub_filter_size, sub_filter_enc. rewrite blen_app, blen_str_enc. reflexivity. Qed.

Lemma osz_str_bin o : osz str_size o = osz bin_size o.
Proof. destruct o; cbn [osz]; [|reflexivity]. Transparent str_size bin_size. unfold str_size, bin_size. lia. Qed.
#[local] Opaque str_size bin_size.

Ltac blens :=
  rewrite ?blen_app, ?blen_u16, ?blen_opt_str, ?blen_opt_bin, ?osz_str_bin,
    ?blen_opt_pid, ?blen_str_enc;
  cbn [app]; rewrite ?blen_cons;
  change (blen (@nil N)) with 0.

Lemma Ok_inj {A} (a b : A) : Ok a = Ok b -> b = a.
Proof. congruence. Qed.

(** [bs] is header, body length (as the encoder writes it), body. *)
Definition framed (h : N) (bs body : bytes) : Prop := bs = [h] ++ venc (blen body) ++ body.

Lemma framed_intro h n body bs :
  n = blen body -> bs = [h] ++ venc n ++ body -> framed h bs body.
Proof. intros -> ->. reflexivity. Qed.

Lemma connect_payload_size_ok pl v f n bs :
  connect_payload_size pl v f = Ok n -> connect_payload_enc pl v f = Ok bs -> n = blen bs.
Proof.
  unfold connect_payload_size, connect_payload_enc. intros H1 H2.
  destruct (cf_will_flag f); [destruct (supports_properties v)|]; cbn [bind] in *.
  - inv_bind H1. inv_bind Ha. inv_bind Ha0. inv_bind Ha0. inv Ha0. inv Ha. inv H1.
    inv_bind H2. inv_bind Ha. inv Ha. inv H2.
    rewrite Ha1 in Ha0. inv Ha0.
    apply (osize_ok _ will_props_list) in Ha1; [|apply will_props_size_list_eq].
    apply vsize_ok in Ha2. subst. blens.
    destruct (cf_user_name f), (cf_password f); blens; lia.
  - inv H1. inv H2. blens.
    destruct (cf_user_name f), (cf_password f); blens; lia.
  - inv H1. inv H2. blens.
    destruct (cf_user_name f), (cf_password f); blens; lia.
Qed.

Definition connect_body (c : connect_packet) (psz : N) (pl : bytes) : bytes :=
  let v := c_protocol_version c in
  str_enc (protocol_name v) ++ u8_enc (protocol_level v) ++ [connect_flags_byte (c_flags c)]
  ++ u16_enc (c_keepalive c)
  ++ (if supports_properties v then venc psz ++ oenc connect_props_list (c_properties c) else [])
  ++ pl.

Lemma connect_framed c bs :
  connect_enc c = Ok bs ->
  exists psz pl, framed 0x10 bs (connect_body c psz pl) /\
    connect_payload_enc (c_payload c) (c_protocol_version c) (c_flags c) = Ok pl /\
    (supports_properties (c_protocol_version c) = true ->
     psz = blen (oenc connect_props_list (c_properties c))).
Proof.
  unfold connect_enc. intros H. inv_bind H. inv_bind H. inv_bind H. inv_bind H. inv H.
  exists a, a2. split; [|split; [exact Ha2|]].
  - eapply framed_intro; [|reflexivity].
    rewrite (connect_payload_size_ok _ _ _ _ _ Ha1 Ha2). unfold connect_body. blens.
    destruct (supports_properties (c_protocol_version c)).
    + inv_bind Ha0. inv Ha0. apply vsize_ok in Ha3. subst.
      apply (osize_ok _ connect_props_list) in Ha; [|apply connect_props_size_list_eq].
      subst. blens. unfold u8_enc. blens. lia.
    + inv Ha0. blens. unfold u8_enc. blens. lia.
  - intros E. rewrite E in Ha.
    apply (osize_ok _ connect_props_list) in Ha; [exact Ha|apply connect_props_size_list_eq].
Qed.

Lemma connack_framed c bs :
  connack_enc c = Ok bs ->
  exists psz, framed 0x20 bs
    (connack_flags_enc (ca_session_present c) ++
     if supports_properties (ca_protocol_version c)
     then reason_enc (ca_reason_code c) ++ venc psz ++ oenc connack_props_list (ca_properties c)
     else [connack_return_code (ca_reason_code c)]) /\
    psz = blen (oenc connack_props_list (ca_properties c)).
Proof.
  unfold connack_enc. intros H. destruct (supports_properties (ca_protocol_version c)).
  - inv_bind H. inv_bind H. inv H. exists a. apply vsize_ok in Ha0.
    apply (osize_ok _ connack_props_list) in Ha; [|apply connack_props_size_list_eq].
    split; [|exact Ha]. eapply framed_intro; [|reflexivity].
    subst. unfold connack_flags_enc, reason_enc. blens. lia.
  - apply Ok_inj in H. eexists. split; [|reflexivity]. eapply framed_intro; [|exact H]. reflexivity.
Qed.

Definition publish_body (b : publish_packet) (psz : N) : bytes :=
  str_enc (pb_topic b) ++ opt_enc u16_enc (pb_packet_id b)
  ++ venc psz ++ oenc publish_props_list (pb_properties b) ++ obytes (pb_payload b).

Lemma publish_framed b bs :
  publish_enc b = Ok bs ->
  exists psz, framed (publish_header b) bs (publish_body b psz) /\
    psz = blen (oenc publish_props_list (pb_properties b)).
Proof.
  unfold publish_enc. intros H. inv_bind H. inv_bind H. inv H. exists a.
  apply vsize_ok in Ha0.
  apply (osize_ok _ publish_props_list) in Ha; [|apply publish_props_size_list_eq].
  split; [|exact Ha]. eapply framed_intro; [|reflexivity].
  subst. unfold publish_body. blens. lia.
Qed.

Definition ack_body (a : ack_packet) (psz : N) : bytes :=
  u16_enc (ak_packet_id a) ++
  if is_some (ak_properties a) || negb (reason_eqb (ak_reason a) Success)
  then reason_enc (ak_reason a) ++ venc psz ++ oenc ack_props_list (ak_properties a)
  else [].

Lemma ack_framed h a bs :
  ack_enc h a = Ok bs ->
  exists psz, framed h bs (ack_body a psz) /\ psz = blen (oenc ack_props_list (ak_properties a)).
Proof.
  unfold ack_enc, ack_body. intros H. inv_bind H. inv_bind H. apply Ok_inj in H. exists a0.
  apply (osize_ok _ ack_props_list) in Ha; [|apply ack_props_size_list_eq].
  split; [|exact Ha].
  destruct (is_some (ak_properties a) || negb (reason_eqb (ak_reason a) Success)).
  - inv_bind Ha0. apply Ok_inj in Ha0. subst a1. apply vsize_ok in Ha1.
    replace (2 + (1 + a2 + a0) =? 2) with false in H by lia.
    eapply framed_intro; [|exact H]. subst. unfold reason_enc. blens. lia.
  - apply Ok_inj in Ha0. subst a1. change (2 + 0 =? 2) with true in H. eapply framed_intro; [|exact H]. reflexivity.
Qed.

Definition subscribe_body (s : subscribe_packet) (psz : N) : bytes :=
  u16_enc (sb_packet_id s) ++ venc psz ++ oenc subscribe_props_list (sb_properties s)
  ++ vec_enc sub_filter_enc (sb_payload s).

Lemma subscribe_framed s bs :
  subscribe_enc s = Ok bs ->
  exists psz, framed 0x82 bs (subscribe_body s psz) /\
    psz = blen (oenc subscribe_props_list (sb_properties s)).
Proof.
  unfold subscribe_enc. intros H. inv_bind H. inv_bind H. inv H. exists a.
  apply vsize_ok in Ha0.
  apply (osize_ok _ subscribe_props_list) in Ha; [|apply subscribe_props_size_list_eq].
  split; [|exact Ha]. eapply framed_intro; [|reflexivity].
  rewrite (vec_size_spec sub_filter_enc) by apply blen_sub_filter.
  subst. unfold subscribe_body. blens. lia.
Qed.

Definition suback_body (s : suback_packet) (psz : N) : bytes :=
  u16_enc (sa_packet_id s)
  ++ (if supports_properties (sa_protocol_version s)
      then venc psz ++ oenc ack_props_list (sa_properties s) else [])
  ++ vec_enc reason_enc (sa_payload s).

Lemma suback_framed s bs :
  suback_enc s = Ok bs ->
  exists psz, framed 0x90 bs (suback_body s psz) /\
    psz = blen (oenc ack_props_list (sa_properties s)).
Proof.
  unfold suback_enc, suback_body. intros H. destruct (supports_properties (sa_protocol_version s)).
  - inv_bind H. inv_bind H. inv H. exists a. apply vsize_ok in Ha0.
    apply (osize_ok _ ack_props_list) in Ha; [|apply ack_props_size_list_eq].
    split; [|exact Ha]. eapply framed_intro; [|reflexivity].
    rewrite (vec_size_spec reason_enc) by reflexivity. subst. blens. lia.
  - apply Ok_inj in H. eexists. split; [|reflexivity]. eapply framed_intro; [|exact H].
    rewrite (vec_size_spec reason_enc) by reflexivity. blens. lia.
Qed.

Definition unsubscribe_body (s : unsubscribe_packet) (psz : N) : bytes :=
  u16_enc (us_packet_id s) ++ venc psz ++ oenc unsubscribe_props_list (us_properties s)
  ++ vec_enc str_enc (us_payload s).

Lemma unsubscribe_framed s bs :
  unsubscribe_enc s = Ok bs ->
  exists psz, framed 0xa2 bs (unsubscribe_body s psz) /\
    psz = blen (oenc unsubscribe_props_list (us_properties s)).
Proof.
  unfold unsubscribe_enc. intros H. inv_bind H. inv_bind H. inv H. exists a.
  apply vsize_ok in Ha0.
  apply (osize_ok _ unsubscribe_props_list) in Ha; [|apply unsubscribe_props_size_list_eq].
  split; [|exact Ha]. eapply framed_intro; [|reflexivity].
  rewrite (vec_size_spec str_enc) by (intros; symmetry; apply blen_str_enc).
  subst. unfold unsubscribe_body. blens. lia.
Qed.

Definition unsuback_body (s : unsuback_packet) (psz : N) : bytes :=
  u16_enc (ua_packet_id s)
  ++ (if supports_properties (ua_protocol_version s)
      then venc psz ++ oenc ack_props_list (ua_properties s) ++ vec_enc reason_enc (ua_payload s)
      else []).

Lemma unsuback_framed s bs :
  unsuback_enc s = Ok bs ->
  exists psz, framed 0xb0 bs (unsuback_body s psz) /\
    psz = blen (oenc ack_props_list (ua_properties s)).
Proof.
  unfold unsuback_enc, unsuback_body. intros H. destruct (supports_properties (ua_protocol_version s)).
  - inv_bind H. inv_bind H. inv H. exists a. apply vsize_ok in Ha0.
    apply (osize_ok _ ack_props_list) in Ha; [|apply ack_props_size_list_eq].
    split; [|exact Ha]. eapply framed_intro; [|reflexivity].
    rewrite (vec_size_spec reason_enc) by reflexivity. subst. blens. lia.
  - apply Ok_inj in H. eexists. split; [|reflexivity]. eapply framed_intro; [|exact H]. reflexivity.
Qed.

Lemma disconnect_framed d bs :
  disconnect_enc d = Ok bs ->
  framed 0xe0 bs (reason_enc (d_reason d) ++ oenc disconnect_props_list (d_properties d)).
Proof.
  unfold disconnect_enc. intros H. inv_bind H. inv H.
  apply (osize_ok _ disconnect_props_list) in Ha; [|apply disconnect_props_size_list_eq].
  eapply framed_intro; [|reflexivity]. subst. unfold reason_enc. blens. lia.
Qed.

Lemma auth_framed a bs :
  auth_enc a = Ok bs ->
  framed 0xf0 bs (reason_enc (au_reason a) ++ props_enc (auth_props_list (au_properties a))).
Proof.
  unfold auth_enc. intros H. inv_bind H. inv H. rewrite auth_props_size_list_eq in Ha.
  apply props_size_ok in Ha.
  eapply framed_intro; [|reflexivity]. subst. unfold reason_enc. blens. lia.
Qed.

Lemma packet_framed k bs : packet_enc k = Ok bs -> exists h body, framed h bs body.
Proof.
  destruct k; cbn [packet_enc]; intros H.
  - apply connect_framed in H. destruct H as (x & y & H & _); eauto.
  - apply connack_framed in H. destruct H as (x & H & _); eauto.
  - apply publish_framed in H. destruct H as (x & H & _); eauto.
  - apply ack_framed in H. destruct H as (x & H & _); eauto.
  - apply ack_framed in H. destruct H as (x & H & _); eauto.
  - apply ack_framed in H. destruct H as (x & H & _); eauto.
  - apply ack_framed in H. destruct H as (x & H & _); eauto.
  - apply subscribe_framed in H. destruct H as (x & H & _); eauto.
  - apply suback_framed in H. destruct H as (x & H & _); eauto.
  - apply unsubscribe_framed in H. destruct H as (x & H & _); eauto.
  - apply unsuback_framed in H. destruct H as (x & H & _); eauto.
  - inv H. exists 0xc0, []. reflexivity.
  - inv H. exists 0xd0, []. reflexivity.
  - apply disconnect_framed in H. eauto.
  - apply auth_framed in H. eauto.
Qed.

Lemma vbi_enc_5 n : vbi_max < n -> 5 <= blen (vbi_enc n).
Proof.
  unfold vbi_max. intros H. unfold vbi_enc. cbn [vbi_enc_loop].
  replace (0 <? n / 128) with true by lia.
  replace (0 <? n / 128 / 128) with true by lia.
  replace (0 <? n / 128 / 128 / 128) with true by lia.
  replace (0 <? n / 128 / 128 / 128 / 128) with true by lia.
  destruct (0 <? n / 128 / 128 / 128 / 128 / 128); unfold blen; cbn; lia.
Qed.

Lemma framed_small h bs body :
  framed h bs body -> blen bs <= max_frame ->
  blen body <= vbi_max /\ bs = h :: vbi_enc (blen body) ++ body.
Proof.
  unfold framed, max_frame. intros -> H. rewrite !blen_app, blen_cons, blen_nil in H.
  assert (Hb : as_u32 (blen body) = blen body) by (unfold as_u32, two32, vbi_max in *; lia).
  unfold venc in *. rewrite Hb in *.
  destruct (N.le_gt_cases (blen body) vbi_max) as [Hle|Hgt]; [auto|].
  pose proof (vbi_enc_5 _ Hgt). unfold vbi_max in *. lia.
Qed.

Lemma packet_is_frame k bs : packet_enc k = Ok bs -> blen bs <= max_frame -> is_frame bs.
Proof.
  intros H Hmax. destruct (packet_framed _ _ H) as (h & body & Hf).
  destruct (framed_small _ _ _ Hf Hmax) as [Hb ->].
  exists h, (vbi_enc (blen body)), body. repeat split.
  - apply vbi_enc_denotes, Hb.
  - apply vbi_enc_len, Hb.
Qed.
