(** Packets the code cannot carry, and sizes of re-encoded packets. *)
From Verif Require Import Base Utf8 Codec SpecCodec Property SpecProperty PacketProps Packets
  SpecPackets Tac CodecFacts PropertyFacts PacketPropsFacts PacketsFacts PacketsRoundtrip
  ParseFacts.

#[local] Opaque vbi_enc vbi_dec.

(** ** AUTH and DISCONNECT properties are written without their length *)

Lemma auth_never_rt p v a bs r :
  auth_enc a = Ok bs -> blen bs <= max_frame -> is_bytes (bs ++ r) ->
  parse_with_version p v (bs ++ r) <> Ok (Auth a, r).
Proof.
  intros He Hm Hb. apply auth_framed in He.
  destruct (framed_small _ _ _ He Hm) as [Hl ->].
  intros H. cbn [app] in H, Hb. unfold parse_with_version in H.
  change (240 / 16) with 15 in H. cbn [lift_packet] in H.
  apply bind_ok in H. destruct H as ([a' r'] & H & E). inv E.
  unfold auth_dec in H. cbn [get_u8 bind] in H. change (negb (N.land 240 15 =? 0)) with false in H.
  cbn iota in H. rewrite <- app_assoc, vbi_roundtrip in H by exact Hl. cbn [bind] in H.
  rewrite <- app_assoc, reason_rt in H. cbn [bind] in H.
  destruct a as [rc pr]. cbn [au_reason au_properties] in *.
  apply bind_ok in H. destruct H as ([a' r'] & H & E). injection E as _ -> ->.
  inversion Hb as [|? ? _ Hb1]; subst. rewrite <- !app_assoc in Hb1. apply is_bytes_app in Hb1. destruct Hb1 as [_ Hb1].
  inversion Hb1 as [|? ? _ Hb2]; subst.
  apply (props_dec_size _ _ _ _ auth_props_list) in H; [|apply auth_step_bounded|reflexivity|exact Hb2].
  destruct H as (len & body & E & _ & Hlen & _ & Hsz).
  apply (f_equal blen) in E. rewrite !blen_app in E. unfold psize in Hsz. lia.
Qed.

Lemma disconnect_never_rt p v d bs r :
  disconnect_enc d = Ok bs -> blen bs <= max_frame -> is_bytes (bs ++ r) ->
  oenc disconnect_props_list (d_properties d) <> [] ->
  parse_with_version p v (bs ++ r) <> Ok (Disconnect d, r).
Proof.
  intros He Hm Hb Hne. apply disconnect_framed in He.
  destruct (framed_small _ _ _ He Hm) as [Hl ->].
  intros H. cbn [app] in H, Hb. unfold parse_with_version in H.
  change (224 / 16) with 14 in H. cbn [lift_packet] in H.
  apply bind_ok in H. destruct H as ([a' r'] & H & E). inv E.
  destruct d as [rc [a|]]; cbn [d_reason d_properties oenc] in *; [|congruence].
  assert (H2 : blen (reason_enc rc ++ props_enc (disconnect_props_list a)) >= 2).
  { rewrite blen_app. change (blen (reason_enc rc)) with 1.
    destruct (props_enc (disconnect_props_list a)); [congruence|]. rewrite blen_cons. lia. }
  unfold disconnect_dec in H. cbn [get_u8 bind] in H. change (negb (N.land 224 15 =? 0)) with false in H.
  cbn iota in H. rewrite <- app_assoc, vbi_roundtrip in H by exact Hl. cbn [bind] in H.
  match type of H with context [?x <? 1] => replace (x <? 1) with false in H by lia;
    replace (x <? 2) with false in H by lia end.
  rewrite <- app_assoc, reason_rt in H. cbn [bind] in H.
  apply bind_ok in H. destruct H as ([o r'] & H & E). injection E as _ -> ->.
  apply bind_ok in H. destruct H as ([a' r'] & H & E). injection E as -> ->.
  inversion Hb as [|? ? _ Hb1]; subst. rewrite <- !app_assoc in Hb1. apply is_bytes_app in Hb1. destruct Hb1 as [_ Hb1].
  inversion Hb1 as [|? ? _ Hb2]; subst.
  apply (props_dec_size _ _ _ _ disconnect_props_list) in H;
    [|apply disconnect_step_bounded|reflexivity|exact Hb2].
  destruct H as (len & body & E & _ & Hlen & _ & Hsz).
  apply (f_equal blen) in E. rewrite !blen_app in E. unfold psize in Hsz. lia.
Qed.

(** ** Request Response Information is never decoded *)

Lemma connect_rri_loop p fuel : forall a bs a',
  cp_request_response_information a = None ->
  props_loop p connect_props_step fuel a bs = Ok a' ->
  cp_request_response_information a' = None.
Proof.
  induction fuel as [|fuel IH]; intros a bs a' Ha; destruct bs as [|x bs]; cbn [props_loop];
    try discriminate.
  1,2: intros H; inv H; exact Ha.
  intros H. apply bind_ok in H. destruct H as ([q r] & E & H).
  destruct (connect_props_step a q) as [a1|] eqn:Es; [|discriminate].
  eapply IH; [|exact H]. unfold connect_props_step in Es. destruct q; inv Es; exact Ha.
Qed.

Lemma connect_rri_never p v bs c a r :
  parse_with_version p v bs = Ok (Connect c, r) -> c_properties c = Some a ->
  cp_request_response_information a = None.
Proof.
  intros H Hc. destruct bs as [|h bs]; [discriminate|]. unfold parse_with_version in H.
  destruct (h / 16) as [|[[[[]|[]|]|[[]|[]|]|]|[[[]|[]|]|[[]|[]|]|]|]]; try discriminate;
    unfold lift_packet in H; apply bind_ok in H; destruct H as ([x r'] & H & E); try discriminate.
  inv E. unfold connect_dec in H. cbn [advance1 bind] in H.
  apply bind_ok in H. destruct H as ([? ?] & _ & H).
  apply bind_ok in H. destruct H as ([? ?] & _ & H).
  apply bind_ok in H. destruct H as ([? ?] & _ & H).
  destruct (from_name_and_level _ _) as [v'|]; [|discriminate].
  apply bind_ok in H. destruct H as ([? ?] & _ & H).
  apply bind_ok in H. destruct H as ([? ?] & _ & H).
  apply bind_ok in H. destruct H as ([o ?] & Hp & H).
  apply bind_ok in H. destruct H as ([? ?] & _ & H). inv H. cbn [c_properties] in Hc. subst o.
  destruct (supports_properties v'); [|discriminate].
  apply bind_ok in Hp. destruct Hp as ([a' ?] & Hp & E). inv E.
  unfold props_dec in Hp. apply bind_ok in Hp. destruct Hp as ([n' r1] & _ & Hp).
  destruct (n' =? 0); [inv Hp; reflexivity|]. destruct (blen r1 <? n'); [discriminate|].
  apply bind_ok in Hp. destruct Hp as (a'' & Hp & E). inv E.
  eapply connect_rri_loop; [|exact Hp]. reflexivity.
Qed.

(** ** Re-encoding what was decoded takes as many bytes *)

Lemma reason_enc_canon r : reason_enc (canon_reason r) = reason_enc r.
Proof. destruct r; reflexivity. Qed.

Lemma vec_reason_canon l : vec_enc reason_enc (map canon_reason l) = vec_enc reason_enc l.
Proof.
  unfold vec_enc. induction l as [|a l IH]; cbn [map flat_map]; [reflexivity|].
  rewrite reason_enc_canon, IH. reflexivity.
Qed.
Lemma vec_size_map {A B} (f : A -> B) l : vec_size (fun _ => 1) (map f l) = vec_size (fun _ : A => 1) l.
Proof. induction l; cbn; [reflexivity|]. unfold vec_size in *. cbn. rewrite IHl. reflexivity. Qed.
Lemma blen_vec_reason l : blen (vec_enc reason_enc l) = vec_size (fun _ : reason => 1) l.
Proof. symmetry. apply vec_size_spec. reflexivity. Qed.

Lemma osize_some_or {A} (lst : A -> list property) d o :
  lst d = [] -> osize lst (some_or d o) = osize lst o.
Proof. destruct o; cbn; [reflexivity|]. intros ->. reflexivity. Qed.
Lemma oenc_some_or {A} (lst : A -> list property) d o :
  lst d = [] -> oenc lst (some_or d o) = oenc lst o.
Proof. destruct o; cbn; [reflexivity|]. intros ->. reflexivity. Qed.

Lemma canon_ack_enc h a : ack_enc h (canon_ack a) = ack_enc h a.
Proof.
  destruct a as [i rc o]. unfold canon_ack. cbn [ak_properties ak_reason ak_packet_id].
  destruct o as [a|].
  - destruct rc; reflexivity.
  - destruct rc; reflexivity.
Qed.

Lemma canon_enc k bs :
  packet_enc k = Ok bs -> match k with Disconnect _ => roundtrippable k | _ => True end ->
  exists bs', packet_enc (canon k) = Ok bs' /\ blen bs' = blen bs.
Proof.
  intros He Hr. destruct k; cbn [canon packet_enc] in *.
  - (* CONNECT *)
    exists bs. split; [|reflexivity]. rewrite <- He. destruct c as [v f ka o pl].
    unfold connect_enc, canon_connect, connect_payload_size, connect_payload_enc, connect_flags_byte.
    cbn [c_protocol_version c_flags c_properties c_payload c_keepalive cf_user_name cf_password
         cf_will_retain cf_will_qos cf_will_flag cf_clean_start cl_client_id cl_will_properties
         cl_will_topic cl_will_payload cl_user_name cl_password].
    destruct (supports_properties v), (cf_will_flag f), (cf_user_name f), (cf_password f);
      cbn [andb bind]; rewrite ?osize_some_or, ?oenc_some_or by reflexivity; reflexivity.
  - (* CONNACK *)
    exists bs. split; [|reflexivity]. rewrite <- He. unfold connack_enc.
    destruct (supports_properties (ca_protocol_version c)) eqn:Ev;
      cbn [ca_protocol_version ca_session_present ca_reason_code ca_properties].
    + change (supports_properties V5) with true. cbn iota.
      rewrite osize_some_or, oenc_some_or, reason_enc_canon by reflexivity. reflexivity.
    + change (supports_properties V3_1_1) with false. cbn iota.
      destruct (ca_reason_code c); reflexivity.
  - (* PUBLISH *)
    exists bs. split; [|reflexivity]. rewrite <- He. unfold publish_enc, publish_header.
    cbn [pb_dup pb_qos pb_retain pb_topic pb_packet_id pb_properties pb_payload].
    rewrite osize_some_or, oenc_some_or by reflexivity. destruct (pb_payload b); reflexivity.
  - exists bs. rewrite canon_ack_enc. auto.
  - exists bs. rewrite canon_ack_enc. auto.
  - exists bs. rewrite canon_ack_enc. auto.
  - exists bs. rewrite canon_ack_enc. auto.
  - exists bs. split; [|reflexivity]. rewrite <- He. unfold subscribe_enc.
    cbn [sb_packet_id sb_properties sb_payload]. rewrite osize_some_or, oenc_some_or by reflexivity.
    reflexivity.
  - unfold suback_enc in *. destruct (supports_properties (sa_protocol_version s)) eqn:Ev;
      cbn [sa_protocol_version sa_packet_id sa_properties sa_payload].
    + exists bs. split; [|reflexivity]. rewrite <- He. change (supports_properties V5) with true.
      cbn iota. rewrite osize_some_or, oenc_some_or, vec_reason_canon, vec_size_map by reflexivity.
      reflexivity.
    + change (supports_properties V3_1_1) with false. cbn iota. eexists. split; [reflexivity|].
      apply Ok_inj in He. subst bs. rewrite !blen_app, !blen_vec_reason, !vec_size_map. reflexivity.
  - exists bs. split; [|reflexivity]. rewrite <- He. unfold unsubscribe_enc.
    cbn [us_packet_id us_properties us_payload]. rewrite osize_some_or, oenc_some_or by reflexivity.
    reflexivity.
  - exists bs. split; [|reflexivity]. rewrite <- He.
    unfold unsuback_enc in *. destruct (supports_properties (ua_protocol_version s)) eqn:Ev;
      cbn [ua_protocol_version ua_packet_id ua_properties ua_payload].
    + change (supports_properties V5) with true.
      cbn iota. rewrite osize_some_or, oenc_some_or, vec_reason_canon, vec_size_map by reflexivity.
      reflexivity.
    + reflexivity.
  - eauto.
  - eauto.
  - exists bs. split; [|reflexivity]. rewrite <- He. destruct d as [rc o].
    unfold disconnect_enc in *. cbn [d_reason d_properties] in *. cbn [roundtrippable d_properties] in Hr.
    cbn [osize oenc bind]. rewrite reason_enc_canon.
    apply bind_ok in He. destruct He as (psz & Hp & _). rewrite Hp. cbn [bind].
    apply (osize_ok _ disconnect_props_list) in Hp; [|apply disconnect_props_size_list_eq].
    rewrite Hr in *. subst psz. reflexivity.
  - eauto.
Qed.

(** ** Encoders are total on well-formed packets *)

Definition ofits {A} (lst : A -> list property) (o : option A) : Prop :=
  Forall wf_prop (match o with Some a => lst a | None => [] end) /\
  blen (oenc lst o) <= vbi_max.

Lemma osize_total {A} (slst lst : A -> list property) o :
  (forall a, slst a = lst a) -> ofits lst o -> osize slst o = Ok (blen (oenc lst o)).
Proof.
  intros Heq [Hw _]. destruct o as [a|]; cbn [osize oenc]; [|reflexivity].
  rewrite Heq. apply props_size_wf, Hw.
Qed.

Lemma vsize_total n : n <= vbi_max -> vsize n = Ok (blen (vbi_enc n)).
Proof.
  intros H. unfold vsize. rewrite vbi_size_spec; unfold as_u32, two32; rewrite N.mod_small;
    unfold vbi_max in *; try lia. reflexivity.
Qed.

(** Every property of the packet is well-formed and each property set fits its length
    field. *)
Definition props_fit (k : packet) : Prop :=
  match k with
  | Connect c => ofits connect_props_list (c_properties c) /\
      ofits will_props_list (cl_will_properties (c_payload c))
  | ConnAck c => ofits connack_props_list (ca_properties c)
  | Publish b => ofits publish_props_list (pb_properties b)
  | PubAck a | PubRec a | PubRel a | PubComp a => ofits ack_props_list (ak_properties a)
  | Subscribe s => ofits subscribe_props_list (sb_properties s)
  | SubAck s => ofits ack_props_list (sa_properties s)
  | Unsubscribe s => ofits unsubscribe_props_list (us_properties s)
  | UnsubAck s => ofits ack_props_list (ua_properties s)
  | PingReq | PingResp => True
  | Disconnect d => ofits disconnect_props_list (d_properties d)
  | Auth a => ofits auth_props_list (Some (au_properties a))
  end.

Ltac total_tac := repeat
  (first [ rewrite (osize_total _ connect_props_list) by (apply connect_props_size_list_eq || assumption)
         | rewrite (osize_total _ will_props_list) by (apply will_props_size_list_eq || assumption)
         | rewrite (osize_total _ connack_props_list) by (apply connack_props_size_list_eq || assumption)
         | rewrite (osize_total _ publish_props_list) by (apply publish_props_size_list_eq || assumption)
         | rewrite (osize_total _ ack_props_list) by (apply ack_props_size_list_eq || assumption)
         | rewrite (osize_total _ subscribe_props_list) by (apply subscribe_props_size_list_eq || assumption)
         | rewrite (osize_total _ unsubscribe_props_list) by (apply unsubscribe_props_size_list_eq || assumption)
         | rewrite (osize_total _ disconnect_props_list) by (apply disconnect_props_size_list_eq || assumption)
         | rewrite vsize_total by (match goal with H : ofits _ _ |- _ => apply H end)
         | progress cbn [bind] ]).

Lemma packet_enc_total k : props_fit k -> exists bs, packet_enc k = Ok bs.
Proof.
  destruct k; cbn [props_fit packet_enc]; intros Hf.
  - destruct Hf as [H1 H2]. unfold connect_enc, connect_payload_size, connect_payload_enc.
    destruct (supports_properties _), (cf_will_flag _); cbn [bind]; total_tac; eauto.
  - unfold connack_enc. destruct (supports_properties _); total_tac; eauto.
  - unfold publish_enc. total_tac; eauto.
  - unfold ack_enc. total_tac. destruct (_ || _); total_tac; eauto.
  - unfold ack_enc. total_tac. destruct (_ || _); total_tac; eauto.
  - unfold ack_enc. total_tac. destruct (_ || _); total_tac; eauto.
  - unfold ack_enc. total_tac. destruct (_ || _); total_tac; eauto.
  - unfold subscribe_enc. total_tac; eauto.
  - unfold suback_enc. destruct (supports_properties _); total_tac; eauto.
  - unfold unsubscribe_enc. total_tac; eauto.
  - unfold unsuback_enc. destruct (supports_properties _); total_tac; eauto.
  - eauto.
  - eauto.
  - unfold disconnect_enc. total_tac; eauto.
  - unfold auth_enc. rewrite auth_props_size_list_eq, props_size_wf by apply Hf. cbn [bind]. eauto.
Qed.
