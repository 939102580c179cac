(** Round trips of all control packets. *)
From Verif Require Import Base Utf8 Codec SpecCodec Property SpecProperty PacketProps Packets
  SpecPackets Tac CodecFacts PropertyFacts PacketPropsFacts PacketsFacts.

(** ** Property sets inside packets *)

Lemma olist_not_rri {A} (f : A -> property) o :
  (forall a, not_rri (f a)) -> Forall not_rri (olist f o).
Proof. intros H. destruct o; cbn; constructor; auto. Qed.
Lemma ulist_not_rri o : Forall not_rri (ulist o).
Proof.
  destruct o as [l|]; cbn; [|constructor].
  induction l; cbn; constructor; [exact I|assumption].
Qed.
Ltac list_not_rri :=
  repeat (apply Forall_app; split);
  try apply ulist_not_rri; try (apply olist_not_rri; intros; exact I).

Lemma connect_props_not_rri a :
  cp_request_response_information a = None -> Forall not_rri (connect_props_list a).
Proof. intros H. unfold connect_props_list. rewrite H. list_not_rri. constructor. Qed.
Lemma will_props_not_rri a : Forall not_rri (will_props_list a).
Proof. unfold will_props_list. list_not_rri. Qed.
Lemma connack_props_not_rri a : Forall not_rri (connack_props_list a).
Proof. unfold connack_props_list. list_not_rri. Qed.
Lemma publish_props_not_rri a : Forall not_rri (publish_props_list a).
Proof. unfold publish_props_list. list_not_rri. Qed.
Lemma ack_props_not_rri a : Forall not_rri (ack_props_list a).
Proof. unfold ack_props_list. list_not_rri. Qed.
Lemma subscribe_props_not_rri a : Forall not_rri (subscribe_props_list a).
Proof. unfold subscribe_props_list. list_not_rri. Qed.
Lemma unsubscribe_props_not_rri a : Forall not_rri (unsubscribe_props_list a).
Proof. unfold unsubscribe_props_list. list_not_rri. Qed.

Definition odef {A} (d : A) (o : option A) : A := match o with Some a => a | None => d end.
Lemma some_odef {A} (d : A) o : Some (odef d o) = some_or d o.
Proof. destruct o; reflexivity. Qed.

Lemma venc_small n : n <= vbi_max -> venc n = vbi_enc n.
Proof. unfold vbi_max, venc, as_u32, two32. intros H. f_equal. lia. Qed.

Lemma oprops_dec {A} p short (step : A -> property -> option A) d lst o r :
  owf (fun a => Forall wf_prop (lst a) /\ Forall not_rri (lst a) /\ foldo step d (lst a) = Some a) o ->
  blen (oenc lst o) <= vbi_max ->
  props_dec p short step d (venc (blen (oenc lst o)) ++ oenc lst o ++ r) = Ok (odef d o, r).
Proof.
  intros Hw Hmax. rewrite venc_small by exact Hmax. destruct o as [a|]; cbn [oenc odef owf] in *.
  - destruct Hw as (Hw & Hn & Hf). apply props_dec_enc; assumption.
  - change (vbi_enc (blen (@nil N))) with [0]. unfold props_dec. reflexivity.
Qed.

Lemma connect_props_rt p short o r :
  owf wf_connect_props o ->
  owf (fun a => cp_request_response_information a = None) o ->
  blen (oenc connect_props_list o) <= vbi_max ->
  props_dec p short connect_props_step connect_props_default
    (venc (blen (oenc connect_props_list o)) ++ oenc connect_props_list o ++ r)
  = Ok (odef connect_props_default o, r).
Proof.
  intros Hw Hr Hm. apply oprops_dec; [|exact Hm]. destruct o as [a|]; [|exact I].
  destruct Hw as [Hw Hu]. repeat split;
    [exact Hw|apply connect_props_not_rri, Hr|apply connect_props_fold; assumption].
Qed.
Lemma will_props_rt p short o r :
  owf wf_will_props o -> blen (oenc will_props_list o) <= vbi_max ->
  props_dec p short will_props_step will_props_default
    (venc (blen (oenc will_props_list o)) ++ oenc will_props_list o ++ r)
  = Ok (odef will_props_default o, r).
Proof.
  intros Hw Hm. apply oprops_dec; [|exact Hm]. destruct o as [a|]; [|exact I].
  destruct Hw as [Hw Hu]. repeat split;
    [exact Hw|apply will_props_not_rri|apply will_props_fold; assumption].
Qed.
Lemma connack_props_rt p short o r :
  owf wf_connack_props o -> blen (oenc connack_props_list o) <= vbi_max ->
  props_dec p short connack_props_step connack_props_default
    (venc (blen (oenc connack_props_list o)) ++ oenc connack_props_list o ++ r)
  = Ok (odef connack_props_default o, r).
Proof.
  intros Hw Hm. apply oprops_dec; [|exact Hm]. destruct o as [a|]; [|exact I].
  destruct Hw as [Hw Hu]. repeat split;
    [exact Hw|apply connack_props_not_rri|apply connack_props_fold; assumption].
Qed.
Lemma publish_props_rt p short o r :
  owf wf_publish_props o -> blen (oenc publish_props_list o) <= vbi_max ->
  props_dec p short publish_props_step publish_props_default
    (venc (blen (oenc publish_props_list o)) ++ oenc publish_props_list o ++ r)
  = Ok (odef publish_props_default o, r).
Proof.
  intros Hw Hm. apply oprops_dec; [|exact Hm]. destruct o as [a|]; [|exact I].
  destruct Hw as [Hw Hu]. repeat split;
    [exact Hw|apply publish_props_not_rri|apply publish_props_fold; assumption].
Qed.
Lemma ack_props_rt p short o r :
  owf wf_ack_props o -> blen (oenc ack_props_list o) <= vbi_max ->
  props_dec p short ack_props_step ack_props_default
    (venc (blen (oenc ack_props_list o)) ++ oenc ack_props_list o ++ r)
  = Ok (odef ack_props_default o, r).
Proof.
  intros Hw Hm. apply oprops_dec; [|exact Hm]. destruct o as [a|]; [|exact I].
  destruct Hw as [Hw Hu]. repeat split;
    [exact Hw|apply ack_props_not_rri|apply ack_props_fold; assumption].
Qed.
Lemma subscribe_props_rt p short o r :
  owf wf_subscribe_props o -> blen (oenc subscribe_props_list o) <= vbi_max ->
  props_dec p short subscribe_props_step subscribe_props_default
    (venc (blen (oenc subscribe_props_list o)) ++ oenc subscribe_props_list o ++ r)
  = Ok (odef subscribe_props_default o, r).
Proof.
  intros Hw Hm. apply oprops_dec; [|exact Hm]. destruct o as [a|]; [|exact I].
  destruct Hw as [Hw Hu]. repeat split;
    [exact Hw|apply subscribe_props_not_rri|apply subscribe_props_fold; assumption].
Qed.
Lemma unsubscribe_props_rt p short o r :
  owf wf_unsubscribe_props o -> blen (oenc unsubscribe_props_list o) <= vbi_max ->
  props_dec p short unsubscribe_props_step unsubscribe_props_default
    (venc (blen (oenc unsubscribe_props_list o)) ++ oenc unsubscribe_props_list o ++ r)
  = Ok (odef unsubscribe_props_default o, r).
Proof.
  intros Hw Hm. apply oprops_dec; [|exact Hm]. destruct o as [a|]; [|exact I].
  destruct Hw as [Hw Hu]. repeat split;
    [exact Hw|apply unsubscribe_props_not_rri|apply unsubscribe_props_fold; assumption].
Qed.

(** ** Payload loops *)

Lemma payload_loop_enc {A B} (dec : bytes -> res (B * bytes)) (enc : A -> bytes) (g : A -> B) l r :
  forall fuel,
  Forall (fun a => 1 <= blen (enc a) /\ forall r, dec (enc a ++ r) = Ok (g a, r)) l ->
  (length (vec_enc enc l ++ r) < fuel)%nat ->
  payload_loop dec fuel (blen r) (vec_enc enc l ++ r) = Ok (map g l, r).
Proof.
  induction l as [|a l IH]; intros fuel Hl Hf.
  - cbn [vec_enc flat_map app map]. destruct fuel; cbn [payload_loop];
      replace (blen r <? blen r) with false by lia; reflexivity.
  - inv Hl. destruct H1 as [Hlen Hdec]. cbn [vec_enc flat_map map] in *. rewrite <- app_assoc in *.
    fold (vec_enc enc l) in *.
    destruct fuel as [|fuel]; cbn [payload_loop];
      replace (blen r <? blen (enc a ++ vec_enc enc l ++ r)) with true
        by (rewrite !blen_app; lia).
    { lia. }
    rewrite Hdec. cbn [bind]. rewrite IH; [reflexivity|assumption|].
    rewrite app_length in Hf. unfold blen in Hlen. lia.
Qed.

Lemma usize_sub_body p (b r : bytes) : usize_sub p (blen (b ++ r)) (blen b) = Ok (blen r).
Proof.
  unfold usize_sub. rewrite blen_app. replace (blen b <=? blen b + blen r) with true by lia.
  f_equal. lia.
Qed.

(** ** Single bytes *)

Lemma reason_rt rc r : reason_dec (reason_enc rc ++ r) = Ok (canon_reason rc, r).
Proof. destruct rc; reflexivity. Qed.

Lemma suback_v3_rt rc r : suback_v3_code (reason_enc rc ++ r) = Ok (canon_suback_v3 rc, r).
Proof. destruct rc; reflexivity. Qed.

Lemma sub_options_rt o r :
  wf_options o -> sub_options_dec ([sub_options_byte o] ++ r) = Ok (o, r).
Proof.
  intros [Hq Hr]. destruct o as [q n a h]; cbn in *.
  destruct q, n, a, h; try congruence; reflexivity.
Qed.

Lemma connect_flags_rt f r :
  (cf_will_flag f = true -> cf_will_qos f <> QInvalid) ->
  connect_flags_dec ([connect_flags_byte f] ++ r) =
    Ok (Mk_connect_flags (cf_user_name f) (cf_password f) (cf_will_retain f)
          (if cf_will_flag f then cf_will_qos f else AtMostOnce) (cf_will_flag f)
          (cf_clean_start f), r).
Proof.
  intros H. destruct f as [u pw wr q w c]; cbn in *.
  destruct w; [specialize (H eq_refl)|clear H]; destruct u, pw, wr, q, c; try congruence; reflexivity.
Qed.

Lemma publish_header_rt b :
  pb_qos b <> QInvalid ->
  let h := publish_header b in
  h / 16 = 3 /\ negb (N.land h 8 =? 0) = pb_dup b /\
  qos_from (N.land h 6 / 2) = pb_qos b /\ negb (N.land h 1 =? 0) = pb_retain b.
Proof.
  unfold publish_header. destruct (pb_dup b), (pb_qos b), (pb_retain b); intros H; try congruence;
    repeat split; reflexivity.
Qed.

(** ** The packets *)

Ltac lens := rewrite ?blen_app in *; lia.

Lemma connect_payload_rt p v f pl enc r :
  connect_payload_enc pl v f = Ok enc ->
  blen enc <= vbi_max ->
  wf_str (cl_client_id pl) ->
  owf wf_will_props (cl_will_properties pl) ->
  present (cf_will_flag f) wf_str (cl_will_topic pl) ->
  present (cf_will_flag f) wf_bin (cl_will_payload pl) ->
  present (cf_user_name f) wf_str (cl_user_name pl) ->
  present (cf_password f) wf_bin (cl_password pl) ->
  connect_payload_dec p v f (enc ++ r)
  = Ok (Mk_connect_payload (cl_client_id pl)
          (if cf_will_flag f && supports_properties v
           then some_or will_props_default (cl_will_properties pl) else None)
          (if cf_will_flag f then cl_will_topic pl else None)
          (if cf_will_flag f then cl_will_payload pl else None)
          (if cf_user_name f then cl_user_name pl else None)
          (if cf_password f then cl_password pl else None), r).
Proof.
  intros He Hm Hc Hwp Hwt Hwd Hu Hpw. unfold connect_payload_dec. unfold connect_payload_enc in He.
  assert (Htail : forall wp wt wd,
    (do (user_name, r0) <-
       (if cf_user_name f then
          do (u, r) <- str_dec
            ((if cf_user_name f then opt_enc str_enc (cl_user_name pl) else []) ++
             (if cf_password f then opt_enc bin_enc (cl_password pl) else []) ++ r);
          Ok (Some u, r)
        else Ok (None,
             (if cf_user_name f then opt_enc str_enc (cl_user_name pl) else []) ++
             (if cf_password f then opt_enc bin_enc (cl_password pl) else []) ++ r));
     do (password, r0) <-
       (if cf_password f then do (u, r) <- bin_dec r0; Ok (Some u, r) else Ok (None, r0));
     Ok (Mk_connect_payload (cl_client_id pl) wp wt wd user_name password, r0))
    = Ok (Mk_connect_payload (cl_client_id pl) wp wt wd
            (if cf_user_name f then cl_user_name pl else None)
            (if cf_password f then cl_password pl else None), r)).
  { intros wp wt wd. destruct (cf_user_name f), (cf_password f); cbn [present app] in *;
      destruct (cl_user_name pl) as [u|]; destruct (cl_password pl) as [pw|];
      cbn [opt_enc] in *; try contradiction;
      rewrite ?str_rt by assumption; cbn [bind]; rewrite ?bin_rt by assumption; reflexivity. }
  destruct (cf_will_flag f) eqn:Ew; [destruct (supports_properties v) eqn:Ev|];
    cbn [present andb] in *.
  - inv_bind He. inv_bind Ha. apply Ok_inj in Ha. subst a. apply Ok_inj in He. subst enc.
    apply (osize_ok _ will_props_list) in Ha0; [|apply will_props_size_list_eq]. subst a0.
    destruct (cl_will_topic pl) as [wt|]; [|contradiction].
    destruct (cl_will_payload pl) as [wd|]; [|contradiction]. cbn [opt_enc].
    rewrite <- !app_assoc. rewrite str_rt by exact Hc. cbn [bind].
    rewrite will_props_rt by (exact Hwp || lens). cbn [bind].
    rewrite str_rt by exact Hwt. cbn [bind]. rewrite bin_rt by exact Hwd. cbn [bind].
    rewrite <- some_odef. apply Htail.
  - apply Ok_inj in He. subst enc.
    destruct (cl_will_topic pl) as [wt|]; [|contradiction].
    destruct (cl_will_payload pl) as [wd|]; [|contradiction]. cbn [opt_enc].
    rewrite <- !app_assoc. cbn [app]. rewrite str_rt by exact Hc. cbn [bind].
    rewrite <- ?app_assoc. rewrite str_rt by exact Hwt. cbn [bind].
    rewrite bin_rt by exact Hwd. cbn [bind]. apply Htail.
  - apply Ok_inj in He. subst enc.
    rewrite <- !app_assoc. cbn [app]. rewrite str_rt by exact Hc. cbn [bind]. apply Htail.
Qed.

Lemma connect_payload_dec_flags p v f f' bs :
  cf_will_flag f = cf_will_flag f' -> cf_user_name f = cf_user_name f' ->
  cf_password f = cf_password f' ->
  connect_payload_dec p v f bs = connect_payload_dec p v f' bs.
Proof. unfold connect_payload_dec. intros -> -> ->. reflexivity. Qed.

Lemma protocol_rt v : from_name_and_level (protocol_name v) (protocol_level v) = Some v.
Proof. destruct v; reflexivity. Qed.

Lemma protocol_name_wf v : wf_str (protocol_name v).
Proof.
  split; [|destruct v; vm_compute; discriminate].
  apply utf8_valid_iff. destruct v; reflexivity.
Qed.

Lemma connect_rt p c bs r :
  connect_enc c = Ok bs -> blen bs <= max_frame -> wf_connect c ->
  owf (fun a => cp_request_response_information a = None) (c_properties c) ->
  connect_dec p (bs ++ r) = Ok (canon_connect c, r).
Proof.
  intros He Hm Hw Hrri. apply connect_framed in He. destruct He as (psz & pl & Hf & Hpl & Hpsz).
  destruct (framed_small _ _ _ Hf Hm) as [Hb ->]. clear Hf Hm.
  destruct Hw as (Hk & Hwq & Hpr & Hid & Hwp & Hwt & Hwd & Hu & Hpw).
  unfold connect_dec. cbn [app advance1 bind]. rewrite <- app_assoc, vbi_roundtrip by exact Hb.
  cbn [bind]. unfold connect_body in *. rewrite <- !app_assoc.
  rewrite str_rt by apply protocol_name_wf. cbn [bind].
  unfold u8_enc. cbn [app u8_dec bind]. rewrite protocol_rt.
  change (connect_flags_byte (c_flags c) :: ?x) with ([connect_flags_byte (c_flags c)] ++ x).
  rewrite connect_flags_rt by exact Hwq. cbn [bind].
  rewrite u16_roundtrip by exact Hk. cbn [bind].
  unfold canon_connect.
  destruct (supports_properties (c_protocol_version c)) eqn:Ev.
  - rewrite Hpsz in * by reflexivity. rewrite <- !app_assoc.
    rewrite connect_props_rt by (assumption || (unfold vbi_max in *; lens)). cbn [bind].
    erewrite connect_payload_dec_flags with (f' := c_flags c) by reflexivity.
    erewrite connect_payload_rt by (eassumption || (unfold vbi_max in *; lens)). cbn [bind].
    rewrite Ev, some_odef. reflexivity.
  - cbn [app bind].
    erewrite connect_payload_dec_flags with (f' := c_flags c) by reflexivity.
    erewrite connect_payload_rt by (eassumption || (unfold vbi_max in *; lens)). cbn [bind].
    rewrite Ev. reflexivity.
Qed.

Lemma connack_flags_rt b r : connack_flags_dec (connack_flags_enc b ++ r) = Ok (b, r).
Proof. destruct b; reflexivity. Qed.

Lemma connack_rt p v c bs r :
  connack_enc c = Ok bs -> blen bs <= max_frame -> owf wf_connack_props (ca_properties c) ->
  supports_properties v = supports_properties (ca_protocol_version c) ->
  lift_packet ConnAck (if supports_properties v then connack_dec p (bs ++ r)
                       else connack_dec_v3 p (bs ++ r)) = Ok (canon (ConnAck c), r).
Proof.
  intros He Hm Hw Hv. apply connack_framed in He. destruct He as (psz & Hf & Hpsz).
  destruct (framed_small _ _ _ Hf Hm) as [Hb ->]. clear Hf Hm.
  rewrite Hv. cbn [canon]. destruct (supports_properties (ca_protocol_version c)).
  - unfold connack_dec. cbn [app advance1 bind]. rewrite <- app_assoc, vbi_roundtrip by exact Hb.
    cbn [bind]. rewrite <- !app_assoc. rewrite connack_flags_rt. cbn [bind].
    rewrite reason_rt. cbn [bind]. subst psz.
    rewrite connack_props_rt by (assumption || lens). cbn [bind lift_packet].
    rewrite some_odef. reflexivity.
  - unfold connack_dec_v3. cbn [app advance1 bind]. rewrite <- app_assoc, vbi_roundtrip by exact Hb.
    cbn [bind]. rewrite <- !app_assoc. rewrite connack_flags_rt. cbn [bind app get_u8 lift_packet].
    destruct (ca_reason_code c); reflexivity.
Qed.

Lemma publish_rt p b bs r :
  publish_enc b = Ok bs -> blen bs <= max_frame -> wf_publish b ->
  lift_packet Publish (publish_dec p (bs ++ r)) = Ok (canon (Publish b), r).
Proof.
  intros He Hm Hw. apply publish_framed in He. destruct He as (psz & Hf & Hpsz).
  destruct (framed_small _ _ _ Hf Hm) as [Hb ->]. clear Hf Hm.
  destruct Hw as (Hq & Ht & Hid & Hpr).
  destruct (publish_header_rt b Hq) as (_ & Hd & Hqq & Hre).
  unfold publish_dec. cbn [app get_u8 bind]. rewrite <- app_assoc, vbi_roundtrip by exact Hb.
  cbn [bind]. rewrite Hd, Hqq, Hre. unfold publish_body in *. rewrite <- !app_assoc.
  rewrite str_rt by exact Ht. cbn [bind].
  assert (Hpid : forall r', (match pb_qos b with
       | AtMostOnce => Ok (None, opt_enc u16_enc (pb_packet_id b) ++ r')
       | QInvalid => Err (EReason MalformedPacket)
       | _ => do (i, r0) <- u16_dec (opt_enc u16_enc (pb_packet_id b) ++ r'); Ok (Some i, r0)
       end) = Ok (pb_packet_id b, r')).
  { intros r'. destruct (pb_qos b), (pb_packet_id b); try contradiction; try congruence; cbn [opt_enc].
    - reflexivity.
    - rewrite u16_roundtrip by exact Hid. reflexivity.
    - rewrite u16_roundtrip by exact Hid. reflexivity. }
  rewrite Hpid. cbn [bind]. clear Hpid. subst psz.
  rewrite publish_props_rt by (assumption || lens). cbn [bind].
  assert (Hsz : props_size (publish_props_size_list (odef publish_props_default (pb_properties b)))
                = Ok (blen (oenc publish_props_list (pb_properties b)))).
  { destruct (pb_properties b) as [a|]; cbn [odef oenc]; [|reflexivity].
    rewrite publish_props_size_list_eq. apply props_size_wf, Hpr. }
  rewrite Hsz. cbn [bind]. clear Hsz.
  assert (Hv : vsize (blen (oenc publish_props_list (pb_properties b)))
               = Ok (blen (venc (blen (oenc publish_props_list (pb_properties b)))))).
  { rewrite venc_small by lens. unfold vsize. rewrite vbi_size_spec.
    - unfold as_u32, two32, vbi_max in *. do 3 f_equal. apply N.mod_small. lens.
    - unfold as_u32, two32, vbi_max in *. lens. }
  rewrite Hv. cbn [bind]. clear Hv.
  rewrite !blen_app, blen_str_enc, blen_opt_pid.
  match goal with |- context [usize_sub p ?x ?y] =>
    replace (usize_sub p x y) with (Ok (A := N) (blen (obytes (pb_payload b))))
  end.
  2:{ unfold usize_sub. case_if; [f_equal; lia|lia]. }
  cbn [bind].
  replace (blen (obytes (pb_payload b)) + blen r <? blen (obytes (pb_payload b))) with false
    by lia.
  rewrite btake_app, bdrop_app. cbn [bind lift_packet canon].
  destruct (pb_payload b), (pb_properties b); reflexivity.
Qed.

Lemma ack_rt p h a bs r :
  ack_enc h a = Ok bs -> blen bs <= max_frame -> wf_id (ak_packet_id a) ->
  owf wf_ack_props (ak_properties a) ->
  ack_dec p (bs ++ r) = Ok (canon_ack a, r).
Proof.
  intros He Hm Hid Hw. apply ack_framed in He. destruct He as (psz & Hf & Hpsz).
  destruct (framed_small _ _ _ Hf Hm) as [Hb ->]. clear Hf Hm.
  unfold ack_dec. cbn [app advance1 bind]. rewrite <- app_assoc, vbi_roundtrip by exact Hb.
  cbn [bind]. unfold ack_body in *. rewrite <- !app_assoc. rewrite u16_roundtrip by exact Hid.
  cbn [bind]. rewrite blen_app, blen_u16 in *. unfold canon_ack. subst psz.
  destruct (is_some (ak_properties a) || negb (reason_eqb (ak_reason a) Success)) eqn:E.
  - rewrite !blen_app in *.
    replace (2 + (blen (reason_enc (ak_reason a)) +
       (blen (venc (blen (oenc ack_props_list (ak_properties a)))) +
        blen (oenc ack_props_list (ak_properties a)))) =? 2) with false
      by (unfold reason_enc; rewrite blen_cons; lia).
    rewrite <- !app_assoc, reason_rt. cbn [bind].
    rewrite ack_props_rt by (assumption || lens). cbn [bind]. rewrite some_odef.
    destruct (ak_properties a); [reflexivity|]. cbn [is_some orb] in E.
    destruct (ak_reason a); cbn in E; try discriminate; reflexivity.
  - change (2 + blen (@nil N) =? 2) with true. cbn [app].
    destruct a as [i rc o]; cbn [ak_properties ak_reason ak_packet_id] in *.
    destruct o; [discriminate|]. destruct rc; try discriminate. reflexivity.
Qed.

Lemma sub_filter_rt f r :
  wf_str (fst f) -> wf_options (snd f) -> sub_filter_dec (sub_filter_enc f ++ r) = Ok (f, r).
Proof.
  intros Hs Ho. unfold sub_filter_dec, sub_filter_enc. rewrite <- app_assoc, str_rt by exact Hs.
  cbn [bind]. rewrite sub_options_rt by exact Ho. cbn [bind]. destruct f; reflexivity.
Qed.

Lemma blen_str_enc_pos s : 1 <= blen (str_enc s).
Proof. rewrite blen_str_enc. unfold str_size. lia. Qed.

Lemma vec_enc_nonempty {A} (enc : A -> bytes) l r :
  l <> [] -> Forall (fun a => 1 <= blen (enc a)) l ->
  (blen (vec_enc enc l ++ r) =? 0) = false.
Proof.
  intros Hne Hl. destruct l as [|a l]; [congruence|]. inv Hl. cbn [vec_enc flat_map].
  rewrite !blen_app. lia.
Qed.

Lemma subscribe_rt p s bs r :
  subscribe_enc s = Ok bs -> blen bs <= max_frame ->
  wf_packet (Subscribe s) ->
  lift_packet Subscribe (subscribe_dec p (bs ++ r)) = Ok (canon (Subscribe s), r).
Proof.
  intros He Hm (Hid & Hpr & Hne & Hpl). apply subscribe_framed in He. destruct He as (psz & Hf & Hpsz).
  destruct (framed_small _ _ _ Hf Hm) as [Hb ->]. clear Hf Hm.
  unfold subscribe_dec. cbn [app advance1 bind]. rewrite <- app_assoc, vbi_roundtrip by exact Hb.
  cbn [bind]. unfold subscribe_body in *.
  rewrite usize_sub_body.
  rewrite <- !app_assoc. rewrite u16_roundtrip by exact Hid. cbn [bind]. subst psz.
  rewrite subscribe_props_rt by (assumption || lens). cbn [bind].
  rewrite vec_enc_nonempty; [|exact Hne|].
  - rewrite (payload_loop_enc _ _ (fun f => f)); [|..|lia].
    + cbn [bind lift_packet canon]. rewrite map_id, some_odef. reflexivity.
    + eapply Forall_impl; [|exact Hpl]. intros f [Hs Ho]. split.
      * unfold sub_filter_enc. rewrite blen_app, blen_cons. lia.
      * intros r'. apply sub_filter_rt; assumption.
  - eapply Forall_impl; [|exact Hpl]. intros f _. unfold sub_filter_enc. rewrite blen_app, blen_cons. lia.
Qed.

Lemma unsubscribe_rt p s bs r :
  unsubscribe_enc s = Ok bs -> blen bs <= max_frame ->
  wf_packet (Unsubscribe s) ->
  lift_packet Unsubscribe (unsubscribe_dec p (bs ++ r)) = Ok (canon (Unsubscribe s), r).
Proof.
  intros He Hm (Hid & Hpr & Hne & Hpl). apply unsubscribe_framed in He. destruct He as (psz & Hf & Hpsz).
  destruct (framed_small _ _ _ Hf Hm) as [Hb ->]. clear Hf Hm.
  unfold unsubscribe_dec. cbn [app advance1 bind]. rewrite <- app_assoc, vbi_roundtrip by exact Hb.
  cbn [bind]. unfold unsubscribe_body in *.
  rewrite usize_sub_body.
  rewrite <- !app_assoc. rewrite u16_roundtrip by exact Hid. cbn [bind]. subst psz.
  rewrite unsubscribe_props_rt by (assumption || lens). cbn [bind].
  rewrite vec_enc_nonempty; [|exact Hne|].
  - rewrite (payload_loop_enc _ _ (fun f => f)); [|..|lia].
    + cbn [bind lift_packet canon]. rewrite map_id, some_odef. reflexivity.
    + eapply Forall_impl; [|exact Hpl]. intros f Hs. split.
      * apply blen_str_enc_pos.
      * intros r'. apply str_rt; assumption.
  - eapply Forall_impl; [|exact Hpl]. intros f _. apply blen_str_enc_pos.
Qed.

Lemma Forall_all {A} (P : A -> Prop) l : (forall a, P a) -> Forall P l.
Proof. intros H. induction l; constructor; auto. Qed.

Lemma suback_rt p v s bs r :
  suback_enc s = Ok bs -> blen bs <= max_frame -> wf_packet (SubAck s) ->
  supports_properties v = supports_properties (sa_protocol_version s) ->
  lift_packet SubAck (if supports_properties v then suback_dec p (bs ++ r)
                      else suback_dec_v3 p (bs ++ r)) = Ok (canon (SubAck s), r).
Proof.
  intros He Hm (Hid & Hpr & Hne) Hv. apply suback_framed in He. destruct He as (psz & Hf & Hpsz).
  destruct (framed_small _ _ _ Hf Hm) as [Hb ->]. clear Hf Hm.
  rewrite Hv. cbn [canon]. unfold suback_body in *.
  destruct (supports_properties (sa_protocol_version s)).
  - unfold suback_dec. cbn [app advance1 bind]. rewrite <- app_assoc, vbi_roundtrip by exact Hb.
    cbn [bind]. rewrite usize_sub_body. rewrite <- !app_assoc.
    rewrite u16_roundtrip by exact Hid. cbn [bind]. subst psz.
    rewrite ack_props_rt by (assumption || lens). cbn [bind].
    rewrite vec_enc_nonempty; [|exact Hne|].
    + rewrite (payload_loop_enc _ _ canon_reason); [|..|lia].
      * cbn [bind lift_packet]. rewrite some_odef. reflexivity.
      * apply Forall_all. intros rc. split; [unfold reason_enc; rewrite blen_cons; lia|apply reason_rt].
    + apply Forall_all. intros rc. unfold reason_enc; rewrite blen_cons; lia.
  - unfold suback_dec_v3. cbn [app advance1 bind]. rewrite <- app_assoc, vbi_roundtrip by exact Hb.
    cbn [bind app]. rewrite usize_sub_body. rewrite <- !app_assoc.
    rewrite u16_roundtrip by exact Hid. cbn [bind].
    rewrite (payload_loop_enc _ _ canon_suback_v3); [|..|lia].
    + reflexivity.
    + apply Forall_all. intros rc. split; [unfold reason_enc; rewrite blen_cons; lia|apply suback_v3_rt].
Qed.

Lemma unsuback_rt p v s bs r :
  unsuback_enc s = Ok bs -> blen bs <= max_frame -> wf_packet (UnsubAck s) ->
  supports_properties v = supports_properties (ua_protocol_version s) ->
  lift_packet UnsubAck (if supports_properties v then unsuback_dec p (bs ++ r)
                      else unsuback_dec_v3 p (bs ++ r)) = Ok (canon (UnsubAck s), r).
Proof.
  intros He Hm (Hid & Hpr & Hne) Hv. apply unsuback_framed in He. destruct He as (psz & Hf & Hpsz).
  destruct (framed_small _ _ _ Hf Hm) as [Hb ->]. clear Hf Hm.
  rewrite Hv. cbn [canon]. unfold unsuback_body in *.
  destruct (supports_properties (ua_protocol_version s)).
  - unfold unsuback_dec. cbn [app advance1 bind]. rewrite <- app_assoc, vbi_roundtrip by exact Hb.
    cbn [bind]. rewrite usize_sub_body. rewrite <- !app_assoc.
    rewrite u16_roundtrip by exact Hid. cbn [bind]. subst psz.
    rewrite ack_props_rt by (assumption || lens). cbn [bind].
    rewrite vec_enc_nonempty; [|exact Hne|].
    + rewrite (payload_loop_enc _ _ canon_reason); [|..|lia].
      * cbn [bind lift_packet]. rewrite some_odef. reflexivity.
      * apply Forall_all. intros rc. split; [unfold reason_enc; rewrite blen_cons; lia|apply reason_rt].
    + apply Forall_all. intros rc. unfold reason_enc; rewrite blen_cons; lia.
  - unfold unsuback_dec_v3. cbn [app advance1 bind]. rewrite <- app_assoc, vbi_roundtrip by exact Hb.
    cbn [bind app]. rewrite <- !app_assoc. rewrite u16_roundtrip by exact Hid. reflexivity.
Qed.

Lemma disconnect_rt p d bs r :
  disconnect_enc d = Ok bs -> blen bs <= max_frame ->
  oenc disconnect_props_list (d_properties d) = [] ->
  lift_packet Disconnect (disconnect_dec p (bs ++ r)) = Ok (canon (Disconnect d), r).
Proof.
  intros He Hm Hp. apply disconnect_framed in He.
  destruct (framed_small _ _ _ He Hm) as [Hb ->]. rewrite Hp in *.
  unfold disconnect_dec. cbn [app get_u8 bind].
  change (negb (N.land 224 15 =? 0)) with false. cbn [app].
  rewrite <- app_assoc, vbi_roundtrip by exact Hb.
  cbn [bind]. rewrite app_nil_r.
  change (blen (reason_enc (d_reason d)) <? 1) with false.
  change (blen (reason_enc (d_reason d)) <? 2) with true.
  rewrite reason_rt. reflexivity.
Qed.

(** ** All packets *)

Lemma packet_rt p v k bs r :
  packet_enc k = Ok bs -> blen bs <= max_frame -> wf_packet k -> roundtrippable k -> reads v k ->
  parse_with_version p v (bs ++ r) = Ok (canon k, r).
Proof.
  intros He Hm Hw Hr Hv.
  assert (Hhd : forall h body x, framed h bs body ->
    match h / 16 with
      | 1 => lift_packet Connect (connect_dec p (bs ++ r))
      | 2 => lift_packet ConnAck
               (if supports_properties v then connack_dec p (bs ++ r) else connack_dec_v3 p (bs ++ r))
      | 3 => lift_packet Publish (publish_dec p (bs ++ r))
      | 4 => lift_packet PubAck (ack_dec p (bs ++ r))
      | 5 => lift_packet PubRec (ack_dec p (bs ++ r))
      | 6 => lift_packet PubRel (ack_dec p (bs ++ r))
      | 7 => lift_packet PubComp (ack_dec p (bs ++ r))
      | 8 => lift_packet Subscribe (subscribe_dec p (bs ++ r))
      | 9 => lift_packet SubAck
               (if supports_properties v then suback_dec p (bs ++ r) else suback_dec_v3 p (bs ++ r))
      | 10 => lift_packet Unsubscribe (unsubscribe_dec p (bs ++ r))
      | 11 => lift_packet UnsubAck
                (if supports_properties v then unsuback_dec p (bs ++ r) else unsuback_dec_v3 p (bs ++ r))
      | 12 => lift_packet (fun _ => PingReq) (ping_dec (bs ++ r))
      | 13 => lift_packet (fun _ => PingResp) (ping_dec (bs ++ r))
      | 14 => lift_packet Disconnect (disconnect_dec p (bs ++ r))
      | 15 => lift_packet Auth (auth_dec p (bs ++ r))
      | _ => Err (EReason MalformedPacket)
      end = x -> parse_with_version p v (bs ++ r) = x).
  { intros h body x ->. exact (fun H => H). }
  destruct k; cbn [packet_enc wf_packet roundtrippable reads] in *; try contradiction.
  - pose proof (connect_framed _ _ He) as (psz & pl & Hf & _). apply (Hhd _ _ _ Hf).
    change (16 / 16) with 1. cbn [lift_packet]. erewrite connect_rt; [reflexivity|eassumption..|].
    destruct (c_properties c); [exact Hr|exact I].
  - pose proof (connack_framed _ _ He) as (psz & Hf & _). apply (Hhd _ _ _ Hf).
    apply connack_rt; assumption.
  - pose proof (publish_framed _ _ He) as (psz & Hf & _). apply (Hhd _ _ _ Hf).
    destruct Hw as [Hq Hw]. destruct (publish_header_rt b Hq) as [-> _].
    apply publish_rt; [assumption..|split; assumption].
  - pose proof (ack_framed _ _ _ He) as (psz & Hf & _). apply (Hhd _ _ _ Hf).
    destruct Hw. change (64 / 16) with 4. erewrite ack_rt by eassumption. reflexivity.
  - pose proof (ack_framed _ _ _ He) as (psz & Hf & _). apply (Hhd _ _ _ Hf).
    destruct Hw. change (80 / 16) with 5. erewrite ack_rt by eassumption. reflexivity.
  - pose proof (ack_framed _ _ _ He) as (psz & Hf & _). apply (Hhd _ _ _ Hf).
    destruct Hw. change (98 / 16) with 6. erewrite ack_rt by eassumption. reflexivity.
  - pose proof (ack_framed _ _ _ He) as (psz & Hf & _). apply (Hhd _ _ _ Hf).
    destruct Hw. change (112 / 16) with 7. erewrite ack_rt by eassumption. reflexivity.
  - pose proof (subscribe_framed _ _ He) as (psz & Hf & _). apply (Hhd _ _ _ Hf).
    apply subscribe_rt; assumption.
  - pose proof (suback_framed _ _ He) as (psz & Hf & _). apply (Hhd _ _ _ Hf).
    apply suback_rt; assumption.
  - pose proof (unsubscribe_framed _ _ He) as (psz & Hf & _). apply (Hhd _ _ _ Hf).
    apply unsubscribe_rt; assumption.
  - pose proof (unsuback_framed _ _ He) as (psz & Hf & _). apply (Hhd _ _ _ Hf).
    apply unsuback_rt; assumption.
  - pose proof (disconnect_framed _ _ He) as Hf. apply (Hhd _ _ _ Hf).
    apply disconnect_rt; assumption.
Qed.
