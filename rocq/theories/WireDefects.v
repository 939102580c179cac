(** Packets that are not written, not read or not refused as the standard of SpecWire demands. *)
From Verif Require Import Base Utf8 Codec SpecCodec Property SpecProperty PacketProps Packets SpecPackets
  Tac CodecFacts PropertyFacts PacketPropsFacts PacketsFacts PacketsRoundtrip ParseFacts PacketsDefects WireFacts SpecWire WireConform WireAccept.

(** ** Written otherwise *)

Lemma reason_dec_canon b r c r' : reason_dec (b :: r) = Ok (c, r') -> canon_reason c = c.
Proof.
  cbn. destruct (reason_of_code b) as [x|] eqn:E; [|discriminate]. intros H. inv H.
  unfold reason_of_code in E. repeat case_match; inv E; reflexivity.
Qed.

Lemma auth_not_wire a bs v : packet_enc (Auth a) = Ok bs -> blen bs <= max_frame -> is_bytes bs -> ~ wire v (Auth a) bs.
Proof.
  intros He Hm Hb Hw.
  assert (H2 : blen bs <> 2).
  { cbn in He. unfold auth_enc in He. apply bind_ok in He. destruct He as (n & _ & He). inv He.
    cbn [app]. rewrite blen_cons, blen_app. unfold reason_enc. cbn [app]. rewrite blen_cons.
    assert (1 <= blen (venc (1 + n))). { unfold venc. unfold vbi_enc. cbn. case_if; rewrite blen_cons; lia. } lia. }
  destruct (auth_read Debug v a bs [] Hw H2) as (a' & Hp & Hc). cbn [same_code] in Hc. destruct Hc as [Hc Ha].
  apply (auth_never_rt Debug V5 a' bs []); try assumption.
  - rewrite <- He. rewrite Ha. cbn [packet_enc]. unfold auth_enc, reason_enc. cbn [au_reason au_properties].
    replace (get_code (au_reason a')) with (get_code (au_reason a)) by (rewrite <- !code_eq; exact Hc). reflexivity.
  - rewrite app_nil_r. exact Hb.
  - destruct Hw as (_ & body & Hf & _). apply frame_inv in Hf. destruct Hf as [_ ->]. exact Hp.
Qed.

Lemma disconnect_not_wire d bs v : packet_enc (Disconnect d) = Ok bs -> blen bs <= max_frame -> is_bytes bs ->
  oenc disconnect_props_list (d_properties d) <> [] -> ~ wire v (Disconnect d) bs.
Proof.
  intros He Hm Hb Hne Hw.
  destruct (disconnect_read Debug v d bs [] Hw) as (d' & Hp & Hc). cbn [same_code] in Hc. destruct Hc as [Hc Hd].
  apply (disconnect_never_rt Debug V5 d' bs []); try assumption.
  - rewrite <- He. rewrite Hd. cbn [packet_enc]. unfold disconnect_enc, reason_enc. cbn [d_reason d_properties].
    replace (get_code (d_reason d')) with (get_code (d_reason d)) by (rewrite <- !code_eq; exact Hc). reflexivity.
  - rewrite app_nil_r. exact Hb.
  - rewrite Hd. exact Hne.
  - destruct Hw as (body & Hf & _). apply frame_inv in Hf. destruct Hf as [_ ->]. exact Hp.
Qed.

(** ** First bytes *)

Definition first_byte (k : packet) (h : N) : Prop :=
  match k with
  | Connect _ => h = 0x10 | ConnAck _ => h = 0x20
  | Publish _ => 0x30 <= h < 0x40
  | PubAck _ => h = 0x40 | PubRec _ => h = 0x50 | PubRel _ => h = 0x62 | PubComp _ => h = 0x70
  | Subscribe _ => h = 0x82 | SubAck _ => h = 0x90 | Unsubscribe _ => h = 0xA2 | UnsubAck _ => h = 0xB0
  | PingReq => h = 0xC0 | PingResp => h = 0xD0 | Disconnect _ => h = 0xE0 | Auth _ => h = 0xF0
  end.
Lemma wire_first v k bs : wire v k bs -> exists h n t, bs = h :: vbi_enc n ++ t /\ n = blen t /\ first_byte k h.
Proof.
  intros H.
  assert (Hfr : forall h body, frame h body bs -> first_byte k h -> exists h n t, bs = h :: vbi_enc n ++ t /\ n = blen t /\ first_byte k h).
  { intros h body Hf Hk. apply frame_inv in Hf. destruct Hf as [_ ->]. exists h, (blen body), body. auto. }
  destruct k; cbn [wire] in H;
    repeat match goal with H : _ /\ _ |- _ => destruct H | H : exists _, _ |- _ => destruct H end;
    (eapply Hfr; [eassumption|]; cbn [first_byte]; try reflexivity).
  unfold qos_bits in *. cbn in *.
  match goal with H : _ \/ _ |- _ => destruct H as [E|[E|[E|[]]]]; inv E end; destruct (pb_dup b), (pb_retain b); cbn; lia.
Qed.
Lemma vbi_head n t c r : n <= vbi_max -> vbi_enc n ++ t = c :: r -> c < 128 -> n = c /\ t = r.
Proof.
  intros Hn H Hc. pose proof (vbi_enc_denotes n Hn) as Hd. destruct (vbi_enc n) as [|b e] eqn:E; [inv Hd|].
  cbn in H. inv H. inv Hd; [|lia]. auto.
Qed.
Lemma frame_short h body h' m t : frame h body (h' :: m :: t) -> m < 128 -> h = h' /\ m = blen body /\ body = t.
Proof.
  intros Hf Hm. apply frame_inv in Hf. destruct Hf as [Hb E]. injection E as -> E. symmetry in E.
  destruct (vbi_head _ _ _ _ Hb E Hm) as [H1 H2]. auto.
Qed.

(** A CONNECT with the retain flag of the will but no will: the bytes are no packet. *)
Definition retain_connect : connect_packet :=
  Mk_connect_packet V3_1_1 (Mk_connect_flags false false true AtMostOnce false true) 60 None
    (Mk_connect_payload [] None None None None None).
Lemma retain_connect_not_wire : packet_enc (Connect retain_connect) = Ok [0x10; 12; 0; 4; 77; 81; 84; 84; 4; 0x22; 0; 60; 0; 0] /\
  forall v k, ~ wire v k [0x10; 12; 0; 4; 77; 81; 84; 84; 4; 0x22; 0; 60; 0; 0].
Proof.
  split; [vm_compute; reflexivity|]. intros v k Hw. destruct (wire_first _ _ _ Hw) as (h & n & t & E & _ & Hk).
  injection E as <- _. destruct k; cbn [first_byte] in Hk; try lia. clear Hk.
  destruct Hw as (_ & name & flags & ka & ps & pl & Hf & Hn & (q & Hq & Hfl & Hwill) & _).
  apply frame_short in Hf; [|lia]. destruct Hf as (_ & _ & E). apply string_iff in Hn. destruct Hn as [_ ->].
  assert (Ef : flags = 34) by (destruct v; vm_compute in E; try discriminate E; injection E as ->; reflexivity).
  subst flags. symmetry in Ef. unfold qos_bits in Hq. cbn in Hq. clear E.
  destruct Hq as [Eq|[Eq|[Eq|[]]]]; injection Eq as Eq <-;
    destruct (c_flags c) as [u pw wr wq wf cs]; cbn [cf_will_qos cf_will_retain cf_will_flag cf_password cf_user_name cf_clean_start] in *;
    subst wq; destruct u, pw, wr, wf, cs; cbn in Ef; try lia; destruct (Hwill eq_refl); discriminate.
Qed.

(** A SUBACK of version 3.1.1 with a return code of version 5: the bytes are no packet of version 3.1.1. *)
Lemma suback_v3_not_wire : packet_enc (SubAck (Mk_suback_packet V3_1_1 1 None [TopicFilterInvalid])) = Ok [0x90; 3; 0; 1; 0x8F] /\
  forall v k, v <> V5 -> ~ wire v k [0x90; 3; 0; 1; 0x8F].
Proof.
  split; [vm_compute; reflexivity|]. intros v k Hv Hw. destruct (wire_first _ _ _ Hw) as (h & n & t & E & _ & Hk).
  injection E as <- _. destruct k; cbn [first_byte] in Hk; try lia. clear Hk.
  destruct Hw as (_ & id & ps & rs & Hf & Hid & Hps & Hrs & _). apply frame_short in Hf; [|lia]. destruct Hf as (_ & _ & E).
  assert (Ep : ps = []) by (destruct v; [apply Hps|apply Hps|congruence]). subst ps. cbn [app] in E.
  destruct Hid as (a & b & -> & _). injection E as _ _ E. inv Hrs; [discriminate|].
  destruct H0 as (c & -> & Hc). injection H1 as E _. subst c.
  destruct v; [| |congruence]; cbn in Hc; destruct Hc as [Hc|[Hc|[Hc|[Hc|[]]]]]; discriminate.
Qed.

(** ** Read otherwise *)

Lemma lax_head n m t c r : lax_int n m -> n ++ t = c :: r -> c < 128 -> m = c /\ n = [c] /\ t = r.
Proof. intros [Hd _] H Hc. inv Hd; cbn in H; inv H; [auto|lia]. Qed.
Lemma lax_section_len l x : lax_section l x -> 1 <= blen x.
Proof. intros (n & body & -> & [Hd _] & _). rewrite blen_app. inv Hd; rewrite blen_cons; lia. Qed.
Lemma lax_part_len {A} has (says : list property -> A) o x : lax_part has says V5 o x -> 1 <= blen x.
Proof. intros (l & H & _). apply (lax_section_len _ _ H). Qed.

Lemma ack_frame_short v h a body bs : frame h body bs -> ack_field v a body -> blen bs = 5 -> exists t, bs = h :: 3 :: t.
Proof.
  intros Hf _ Hl. apply frame_inv in Hf. destruct Hf as [Hb ->]. rewrite blen_cons, blen_app in Hl.
  pose proof (vbi_enc_len _ Hb). rewrite vbi_enc_1 in * by lia. rewrite blen_cons, blen_nil in Hl.
  replace (blen body) with 3 by lia. eexists. reflexivity.
Qed.
Lemma lax_ack_short h m body a t : lax_frame h m body (h :: 3 :: t) -> lax_ack m a body -> blen t = 3 -> False.
Proof.
  intros (n & E & Hn) (id & rest & -> & Hid & Hr) Hl. injection E as E. symmetry in E.
  destruct (lax_head _ _ _ _ _ Hn E) as (-> & _ & <-); [lia|]. change (3 =? 2) with false in Hr. cbv iota in Hr.
  destruct Hr as (ps & -> & Hps). apply lax_part_len in Hps. destruct Hid as (i & j & -> & _). cbn [app] in Hl.
  rewrite !blen_cons in Hl. lia.
Qed.

Lemma ack_short_never p v k bs r k' : wire v k bs ->
  match k with PubAck _ | PubRec _ | PubRel _ | PubComp _ => True | _ => False end -> blen bs = 5 ->
  is_bytes (bs ++ r) -> blen (bs ++ r) < two64 -> parse_with_version p v (bs ++ r) <> Ok (k', r).
Proof.
  intros Hw Hk Hl Hb Hl64 H. destruct (packet_accept _ _ _ _ _ Hb Hl64 H) as (x & Ex & Hx). apply app_inv_tail in Ex. subst x.
  assert (Hsh : exists h t, bs = h :: 3 :: t /\ (h = 0x40 \/ h = 0x50 \/ h = 0x62 \/ h = 0x70)).
  { destruct k; try contradiction; destruct Hw as (body & Hf & Ha); destruct (ack_frame_short _ _ _ _ _ Hf Ha Hl) as (t & ->); eauto 10. }
  destruct Hsh as (h & t & -> & Hh). assert (Ht : blen t = 3) by (rewrite !blen_cons in Hl; lia).
  assert (Hend : forall h' m body a, h' / 16 = h / 16 -> lax_frame h' m body (h :: 3 :: t) -> lax_ack m a body -> False).
  { intros h' m body a _ Hf Ha. assert (h' = h) by (destruct Hf as (n & E & _); injection E as -> _; reflexivity). subst h'.
    exact (lax_ack_short _ _ _ _ _ Hf Ha Ht). }
  unfold parse_with_version in H. cbn [app] in H.
  destruct Hh as [->|[->|[->| ->]]];
    [change (64 / 16) with 4 in H | change (80 / 16) with 5 in H | change (98 / 16) with 6 in H | change (112 / 16) with 7 in H];
    cbv beta iota in H; unfold lift_packet in H; apply bind_ok in H; destruct H as ([a r'] & _ & H); inv H;
    destruct Hx as (h' & m & body & Hh' & Hf & Ha); eapply Hend; try eassumption; rewrite Hh'; reflexivity.
Qed.

Lemma auth_empty_never p v r k' : is_bytes r -> blen r + 2 < two64 -> parse_with_version p v (0xF0 :: 0 :: r) <> Ok (k', r).
Proof.
  intros Hb Hl H.
  assert (Hb' : is_bytes (0xF0 :: 0 :: r)) by (constructor; [unfold is_byte; lia|constructor; [unfold is_byte; lia|exact Hb]]).
  destruct (packet_accept _ _ _ _ _ Hb' ltac:(rewrite !blen_cons; lia) H) as (x & Ex & Hx).
  change (240 :: 0 :: r) with ([240; 0] ++ r) in Ex. apply app_inv_tail in Ex. subst x.
  unfold parse_with_version in H. change (240 / 16) with 15 in H. cbv beta iota in H. unfold lift_packet in H.
  apply bind_ok in H. destruct H as ([a r'] & _ & H). inv H. destruct Hx as (m & ps & (n & E & Hn) & Hps). injection E as E. symmetry in E.
  destruct (lax_head _ _ _ _ _ Hn E) as (_ & _ & E2); [lia|discriminate].
Qed.

(** ** Not refused *)

(** No packet has this first byte. *)
Lemma first_byte_not_wire v k h t : ~ In h [0x10; 0x20; 0x40; 0x50; 0x62; 0x70; 0x82; 0x90; 0xA2; 0xB0; 0xC0; 0xD0; 0xE0; 0xF0] ->
  ~ 0x30 <= h < 0x40 -> ~ wire v k (h :: t).
Proof.
  intros H1 H2 Hw. destruct (wire_first _ _ _ Hw) as (h' & n & t' & E & _ & Hk). injection E as <- _.
  apply H1. destruct k; cbn [first_byte] in Hk; cbn; try lia; tauto.
Qed.

(** Bytes that are not read to their end, or beyond it, are no packet. *)
Lemma misread_not_wire p k bs r r' k' : parse_with_version p V5 (bs ++ r) = Ok (k', r') -> r' <> r -> readable V5 k bs -> ~ wire V5 k bs.
Proof. intros H Hr Hk Hw. destruct (packet_read p V5 k bs r Hw Hk) as (k'' & H' & _). congruence. Qed.

Lemma not_refused : Forall (fun bs => (forall k, ~ wire V5 k bs) /\ forall p, exists k r, parse_with_version p V5 (bs ++ [1; 1]) = Ok (k, r))
  [ [0x41; 2; 0; 1];                                 (* PUBACK, reserved flags *)
    [0x80; 7; 0; 1; 0; 0; 1; 97; 0];                 (* SUBSCRIBE, reserved flags *)
    [0x40; 0x82; 0; 0; 1];                           (* PUBACK, remaining length in two bytes *)
    [0x40; 6; 0; 1; 0; 0; 9; 9];                     (* PUBACK, two bytes too many *)
    [0x30; 9; 0; 1; 97; 4; 1; 0; 1; 1; 120; 121]     (* PUBLISH, payload format indicator twice *) ].
Proof.
  repeat apply Forall_cons; try apply Forall_nil; (split; [|intros p; destruct p; do 2 eexists; vm_compute; reflexivity]); intros k.
  - apply first_byte_not_wire; [cbn; intuition discriminate|lia].
  - apply first_byte_not_wire; [cbn; intuition discriminate|lia].
  - intros Hw. destruct (wire_first _ _ _ Hw) as (h & n & t & E & En & _). injection E as _ E.
    assert (Hl : blen (vbi_enc n ++ t) = 4) by (rewrite <- E; reflexivity). rewrite blen_app in Hl.
    rewrite vbi_enc_1 in E by lia. injection E as E _. lia.
  - intros Hw. destruct (wire_first _ _ _ Hw) as (h & n & t & E & _ & Hk). injection E as <- _.
    destruct k; cbn [first_byte] in Hk; try lia.
    refine (misread_not_wire Debug _ _ [] [9; 9] _ _ _ _ Hw); [vm_compute; reflexivity|discriminate|vm_compute; discriminate].
  - intros Hw. destruct (wire_first _ _ _ Hw) as (h & n & t & E & _ & Hk). injection E as <- _.
    destruct k; cbn [first_byte] in Hk; try lia.
    refine (misread_not_wire Debug _ _ [1] [] _ _ _ _ Hw); [vm_compute; reflexivity|discriminate|reflexivity].
Qed.

(** ** A property that occurs twice makes a PUBLISH take bytes of the next packet *)

Lemma the_some_in {A} (f : property -> option A) l a : the f l = Some a -> exists q, In q l /\ f q = Some a.
Proof.
  induction l as [|q l IH]; cbn; [discriminate|]. destruct (the f l) as [a'|] eqn:E.
  - intros H. destruct (IH H) as (q' & Hi & Hq). exists q'. auto.
  - intros H. exists q. auto.
Qed.
Lemma ids_in q l : In q l -> is_user q = false -> In (identifier q) (ids l).
Proof. intros Hi Hu. unfold ids. apply in_map, filter_In. rewrite Hu. auto. Qed.
Lemma the_none_absent {A} (f : property -> option A) i l :
  (forall q, identifier q = i -> is_user q = false -> f q <> None) -> the f l = None -> ~ In i (ids l).
Proof.
  intros Hf. induction l as [|q l IH]; cbn; [auto|]. destruct (the f l) eqn:E; [discriminate|]. intros Hq.
  unfold ids in *. cbn [filter map]. destruct (is_user q) eqn:Eu; cbn [negb map]; [exact (IH eq_refl)|].
  intros [Hi|Hi]; [exact (Hf q Hi Eu Hq)|exact (IH eq_refl Hi)].
Qed.
Lemma prop_enc_pos q : 1 <= blen (props_enc [q]).
Proof.
  unfold props_enc, prop_enc. cbn [flat_map]. rewrite app_nil_r, blen_app.
  enough (blen (vbi_enc (prop_id q)) = 1) by lia. destruct q; reflexivity.
Qed.
Lemma ulist_users_cons k v l : ulist (users (PUserProperty k v :: l)) = PUserProperty k v :: ulist (users l).
Proof. rewrite !users_pairs. cbn [pairs flat_map app]. fold (pairs l). destruct (pairs l) as [|[k' v'] u]; reflexivity. Qed.

Lemma publish_shrinks l : Forall wf_prop l -> Forall publish_has l ->
  Forall wf_prop (publish_props_list (publish_says l)) /\
  blen (props_enc (publish_props_list (publish_says l))) <= blen (props_enc l) /\
  (blen (props_enc (publish_props_list (publish_says l))) = blen (props_enc l) -> once l).
Proof.
  induction l as [|q l IH]; intros Hw Hh; [split; [apply Forall_nil|split; [reflexivity|intros _; constructor]]|].
  inv Hw. inv Hh. rename H1 into Hq. rename H2 into Hw. rename H3 into Hqh. rename H4 into Hh.
  destruct (IH Hw Hh) as (IHw & IHl & IHo). clear IH.
  change (q :: l) with ([q] ++ l). rewrite (props_enc_app [q] l), blen_app. pose proof (prop_enc_pos q) as Hpos. cbn [app].
  assert (Hone : once l -> is_user q = true \/ ~ In (identifier q) (ids l) -> once (q :: l)).
  { unfold once. cbn [filter]. intros Ho [-> | Hi]; [exact Ho|]. destruct (is_user q); [exact Ho|]. cbn [negb map]. constructor; assumption. }
  unfold publish_props_list, publish_says in *.
  cbn [pp_payload_format_indicator pp_message_expiry_interval pp_topic_alias pp_response_topic pp_correlation_data
       pp_user_property pp_subscription_identifier pp_content_type] in *.
  destruct q as [x|x|x|x|x|x|x|x|x|x|x|x|x|x|x|x|x|x|x|x|x|x|k x|x|x|x|x];
    try (exfalso; revert Hqh; apply not_listed; reflexivity); cbn [the]; try rewrite ulist_users_cons;
    try match goal with |- context [users (?q :: l)] => change (users (q :: l)) with (users l) end;
    repeat match goal with |- context [match the ?f l with Some a => Some a | None => None end] =>
      replace (match the f l with Some a => Some a | None => None end) with (the f l) by (destruct (the f l); reflexivity) end;
    try match goal with |- context [match the ?f l with Some a => Some a | None => Some _ end] =>
      destruct (the f l) eqn:Et; [clear Hone|] end; cbn [olist] in *;
    try match goal with Et : the ?f l = None, Hpos : _ <= blen (props_enc [?q]) |- _ =>
      apply (the_none_absent f (identifier q)) in Et;
        [specialize (fun H => Hone H (or_intror Et))|intros y Hy Hu; destruct y; try discriminate Hy; try discriminate Hu; discriminate]
    end;
    try specialize (fun H => Hone H (or_introl eq_refl)).
  all: try change (PUserProperty k x :: ulist (users l)) with ([PUserProperty k x] ++ ulist (users l)).
  all: repeat match goal with |- context [olist ?P ?o] => let y := fresh "y" in set (y := olist P o) in *; clearbody y end.
  all: rewrite ?props_enc_app, ?blen_app, ?Forall_app in *; change (blen (props_enc [])) with 0 in *.
  all: repeat match goal with H : _ /\ _ |- _ => destruct H end.
  all: split; [repeat match goal with |- _ /\ _ => split end; try assumption; (apply Forall_cons; [assumption|apply Forall_nil])|].
  all: split; [lia|intros Hs].
  all: try (apply Hone, IHo; lia). all: exfalso; lia.
Qed.

Lemma repeated_takes_more p dup qos q retain topic t id l ps d bs r b r' :
  frame (0x30 + 8 * bit dup + 2 * q + bit retain) (topic ++ id ++ ps ++ d) bs -> qos_bits qos q -> string_field topic t ->
  match qos with AtMostOnce => id = [] | _ => exists i, int2 id i end ->
  section l ps -> Forall publish_has l -> ~ once l ->
  parse_with_version p V5 (bs ++ r) = Ok (Publish b, r') ->
  exists e, e <> [] /\ r = e ++ r' /\ pb_payload b = Some (d ++ e).
Proof.
  intros Hf Hq Ht Hid Hs Hl Ho H. apply frame_inv in Hf. destruct Hf as [Hb ->].
  unfold parse_with_version in H. cbn [app] in H.
  assert (Hh : let h := 48 + 8 * bit dup + 2 * q + bit retain in h / 16 = 3 /\ qos_from (N.land h 6 / 2) = qos /\ qos <> QInvalid).
  { unfold qos_bits in Hq. cbn in Hq. destruct Hq as [E|[E|[E|[]]]]; inv E; destruct dup, retain; repeat split; try reflexivity; discriminate. }
  destruct Hh as (Hh & Eq & Hqi). rewrite Hh in H. cbn iota in H.
  unfold lift_packet in H. apply bind_ok in H. destruct H as ([b' r0] & H & E). inv E.
  unfold publish_dec in H. cbn [get_u8 bind] in H. rewrite <- app_assoc, vbi_roundtrip in H by exact Hb. cbn [bind] in H.
  rewrite <- !app_assoc, (string_read _ _ _ Ht) in H. cbn [bind] in H.
  apply bind_ok in H. destruct H as ([i r2] & Hi & H).
  assert (Hr2 : r2 = ps ++ d ++ r /\ pid_size i = blen id).
  { destruct (qos_from _) in *; try congruence.
    - subst id. inv Hi. auto.
    - destruct Hid as (j & Hj). rewrite (int2_read _ _ _ Hj) in Hi. inv Hi. apply int2_iff in Hj. destruct Hj as [_ ->]. auto.
    - destruct Hid as (j & Hj). rewrite (int2_read _ _ _ Hj) in Hi. inv Hi. apply int2_iff in Hj. destruct Hj as [_ ->]. auto. }
  destruct Hr2 as [-> Hil].
  rewrite (section_read p PacketIncomplete _ _ _ _ _ _ _ publish_folds Hs Hl (Forall_impl _ publish_no_rri Hl)) in H. cbn [bind] in H.
  apply section_iff in Hs. destruct Hs as (Hw & Hm & ->).
  destruct (publish_shrinks l Hw Hl) as (Hw' & Hle & Hlt).
  assert (Hsm : blen (props_enc (publish_props_list (publish_says l))) < blen (props_enc l)).
  { apply N.le_neq. split; [exact Hle|]. intros E. exact (Ho (Hlt E)). }
  rewrite publish_props_size_list_eq, (props_size_wf _ Hw') in H. cbn [bind] in H.
  set (z := blen (props_enc (publish_props_list (publish_says l)))) in *. clearbody z. clear Hlt.
  assert (Hv : vsize z = Ok (blen (vbi_enc z))).
  { unfold vsize, as_u32. rewrite N.mod_small by (unfold two32, vbi_max in *; lia). apply vbi_size_spec. lia. }
  rewrite Hv in H. cbn [bind] in H. apply string_iff in Ht. destruct Ht as [_ ->].
  pose proof (vbi_enc_mono _ _ Hle Hm) as Hmono.
  apply bind_ok in H. destruct H as (n & Hn & H). rewrite !blen_app, blen_str_enc, Hil in Hn. unfold usize_sub in Hn.
  revert Hn. case_if; intros Hn; [|lia]. injection Hn as Hn.
  destruct (blen (d ++ r) <? n) eqn:En; [discriminate|].
  assert (Hnd : exists m, 0 < m /\ n = blen d + m /\ m <= blen r).
  { exists (n - blen d). rewrite blen_app in En. lia. }
  clear Hn En. destruct Hnd as (m & Hm0 & -> & Hmr). inv H. cbn [pb_payload].
  assert (Er : d ++ r = (d ++ btake m r) ++ bdrop m r) by (rewrite <- app_assoc, btake_bdrop; reflexivity).
  replace (blen d + m) with (blen (d ++ btake m r)) by (rewrite blen_app, blen_btake by exact Hmr; reflexivity).
  rewrite Er, btake_app, bdrop_app. exists (btake m r). split; [|split; [symmetry; apply btake_bdrop|reflexivity]].
  intros E. apply (f_equal blen) in E. rewrite blen_btake in E by exact Hmr. change (blen (@nil byte)) with 0 in E. lia.
Qed.
