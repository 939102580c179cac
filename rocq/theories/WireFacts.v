(** Remaining facts behind Properties_Wire.v. *)
From Verif Require Import Base Utf8 Codec SpecCodec Property SpecProperty PacketProps Packets
  SpecPackets Frame Tac CodecFacts PropertyFacts PacketPropsFacts PacketsFacts PacketsRoundtrip
  ParseFacts PacketsDefects FrameFacts.

(** ** Variable byte integers *)

Lemma vbi_total p bs : is_bytes bs ->
  match vbi_dec p bs with
  | Ok (n, r) => exists pre, bs = pre ++ r /\ vbi_denotes pre n /\ 1 <= blen pre <= 4 /\ n <= vbi_max
  | Err e => e = PacketIncomplete \/ e = EReason MalformedPacket
  | Panic => p = Debug
  end.
Proof.
  intros Hb. destruct (vbi_dec p bs) as [[n r]|e|] eqn:E.
  - eapply vbi_dec_ok; eassumption.
  - eapply vbi_dec_err; eassumption.
  - destruct p; [reflexivity|]. exfalso. exact (vbi_dec_no_panic_release _ Hb E).
Qed.

Lemma vbi_debug_panic bs : is_bytes bs ->
  (vbi_dec Debug bs = Panic <->
   exists a b c d e r, bs = a :: b :: c :: d :: e :: r /\
     128 <= a /\ 128 <= b /\ 128 <= c /\ 128 <= d /\ 16 <= e mod 128).
Proof.
  intros Hb. rewrite vbi_dec_spec by exact Hb. unfold vbi_spec. split.
  - repeat (case_match; try discriminate). intros _. do 6 eexists. split; [reflexivity|]. lia.
  - intros (a & b & c & d & e & r & -> & ?). cbn.
    replace (a <? 128) with false by lia. replace (b <? 128) with false by lia.
    replace (c <? 128) with false by lia. replace (d <? 128) with false by lia.
    replace (e mod 128 <? 16) with false by lia. reflexivity.
Qed.

(** Whatever denotes a value in at most four bytes is accepted, shortest or not. *)
Lemma vbi_dec_denotes p pre n r :
  vbi_denotes pre n -> blen pre <= 4 -> is_bytes r -> vbi_dec p (pre ++ r) = Ok (n, r).
Proof.
  intros Hd Hl Hr.
  assert (Hb : is_bytes (pre ++ r)).
  { apply is_bytes_app. split; [|exact Hr]. clear - Hd. induction Hd; repeat constructor; auto; unfold is_byte; lia. }
  rewrite vbi_dec_spec by exact Hb. unfold vbi_spec. clear Hb.
  inv Hd. { cbn. replace (n <? 128) with true by lia. reflexivity. }
  cbn [app]. replace (b <? 128) with false by lia.
  inv H1. { cbn. replace (n0 <? 128) with true by lia. reflexivity. }
  cbn [app]. replace (b0 <? 128) with false by lia.
  inv H4. { cbn. replace (n <? 128) with true by lia. reflexivity. }
  cbn [app]. replace (b1 <? 128) with false by lia.
  inv H6. { cbn. replace (n0 <? 128) with true by lia. reflexivity. }
  match goal with H : vbi_denotes ?l _ |- _ => apply vbi_denotes_nonempty in H; destruct l; [congruence|] end.
  rewrite !blen_cons in Hl. lia.
Qed.

(** ** Strings *)

Lemma str_dec_char bs s r :
  str_dec bs = Ok (s, r) <->
  exists a b, bs = a :: b :: s ++ r /\ a * 256 + b = blen s /\ utf8 s.
Proof.
  split.
  - unfold str_dec. destruct bs as [|a [|b t]]; try discriminate. cbv zeta.
    case_if; [discriminate|]. destruct (utf8_valid _) eqn:Eu; [|discriminate].
    intros H. inv H. exists a, b. rewrite btake_bdrop, blen_btake by lia.
    split; [reflexivity|]. split; [reflexivity|]. apply utf8_valid_iff, Eu.
  - intros (a & b & -> & Hl & Hu). unfold str_dec. cbv zeta. rewrite Hl, blen_app.
    replace (blen s + blen r <? blen s) with false by lia.
    rewrite btake_app, bdrop_app. apply utf8_valid_iff in Hu. rewrite Hu. reflexivity.
Qed.

Lemma str_dec_total bs :
  match str_dec bs with
  | Ok _ => True
  | Err e => e = PacketIncomplete \/ e = EReason MalformedPacket
  | Panic => False
  end.
Proof.
  unfold str_dec. destruct bs as [|a [|b t]]; auto. cbv zeta. case_if; auto.
  destruct (utf8_valid _); auto.
Qed.

(** ** Flags and versions *)

Lemma flags_dec_byte : forallb (fun b =>
  match connect_flags_of_byte b with
  | Ok f =>
      negb (N.testbit b 0) && eqb (cf_clean_start f) (N.testbit b 1)
      && eqb (cf_will_flag f) (N.testbit b 2)
      && (if N.testbit b 2 then qos_u8 (cf_will_qos f) =? (b / 8) mod 4 else qos_eqb (cf_will_qos f) AtMostOnce)
      && negb (N.testbit b 2 && ((b / 8) mod 4 =? 3))
      && eqb (cf_will_retain f) (N.testbit b 5)
      && eqb (cf_password f) (N.testbit b 6) && eqb (cf_user_name f) (N.testbit b 7)
      && (connect_flags_byte f =? if N.testbit b 2 then b else b - N.land b 24)
  | Err e => match e with EReason MalformedPacket => N.testbit b 0 || (N.testbit b 2 && ((b / 8) mod 4 =? 3)) | _ => false end
  | Panic => false
  end) (map N.of_nat (seq 0 256)) = true.
Proof. vm_compute. reflexivity. Qed.

Lemma flags_dec_spec b : b < 256 ->
  match connect_flags_of_byte b with
  | Ok f =>
      N.testbit b 0 = false /\ ~ (N.testbit b 2 = true /\ (b / 8) mod 4 = 3) /\
      cf_clean_start f = N.testbit b 1 /\ cf_will_flag f = N.testbit b 2 /\
      (N.testbit b 2 = true -> qos_u8 (cf_will_qos f) = (b / 8) mod 4) /\
      cf_will_retain f = N.testbit b 5 /\ cf_password f = N.testbit b 6 /\
      cf_user_name f = N.testbit b 7 /\
      connect_flags_byte f = if N.testbit b 2 then b else b - N.land b 24
  | Err e => e = EReason MalformedPacket /\
             (N.testbit b 0 = true \/ (N.testbit b 2 = true /\ (b / 8) mod 4 = 3))
  | Panic => False
  end.
Proof.
  intros Hb. pose proof flags_dec_byte as H. rewrite forallb_forall in H.
  assert (Hin : In b (map N.of_nat (seq 0 256))).
  { apply in_map_iff. exists (N.to_nat b). split; [apply N2Nat.id|]. apply in_seq. lia. }
  specialize (H b Hin). destruct (connect_flags_of_byte b) as [f|e|].
  - repeat (apply andb_prop in H; let X := fresh "X" in destruct H as [H X]).
    apply negb_true_iff in H. repeat match goal with X : eqb _ _ = true |- _ => apply eqb_prop in X end.
    repeat split; auto.
    + intros [A B]. rewrite A, B in X3. discriminate.
    + intros A. rewrite A in X4. apply N.eqb_eq, X4.
    + apply N.eqb_eq, X.
  - destruct e as [| |r|]; try discriminate. destruct r; try discriminate.
    split; [reflexivity|]. apply orb_prop in H. destruct H as [H|H]; [auto|].
    apply andb_prop in H. destruct H as [A B]. right. split; [exact A|]. apply N.eqb_eq, B.
  - discriminate.
Qed.

Lemma version_spec name level v :
  from_name_and_level name level = Some v <->
  match v with
  | V3_1 => name = [77; 81; 73; 115; 100; 112] /\ level = 3
  | V3_1_1 => name = [77; 81; 84; 84] /\ level = 4
  | V5 => name = [77; 81; 84; 84] /\ level = 5
  end.
Proof.
  unfold from_name_and_level, str_MQIsdp, str_MQTT. split.
  - destruct (bytes_eqb name [77; 81; 73; 115; 100; 112]) eqn:E1; cbn [andb].
    + destruct (level =? 3) eqn:E2; [intros H; inv H; apply bytes_eqb_eq in E1; split; [assumption|lia]|].
      apply bytes_eqb_eq in E1. subst. cbn. discriminate.
    + destruct (bytes_eqb name [77; 81; 84; 84]) eqn:E2; cbn [andb]; [|discriminate].
      apply bytes_eqb_eq in E2.
      destruct (level =? 4) eqn:E3; [intros H; inv H; split; [reflexivity|lia]|].
      destruct (level =? 5) eqn:E4; [intros H; inv H; split; [reflexivity|lia]|discriminate].
  - destruct v; intros [-> ->]; reflexivity.
Qed.

(** A CONNECT frame up to the protocol level. *)
Lemma connect_version p bs r name level :
  wf_str name -> is_bytes bs ->
  forall len n, vbi_denotes len n -> blen len <= 4 -> is_bytes r ->
  bs = 16 :: len ++ str_enc name ++ level :: r ->
  (from_name_and_level name level = None -> parse p bs = Err (EReason UnsupportedProtocolVersion)) /\
  (forall c r', parse p bs = Ok (Connect c, r') ->
     from_name_and_level name level = Some (c_protocol_version c)).
Proof.
  intros Hn Hb len n Hd Hl Hr ->. unfold parse, parse_with_version.
  change (16 / 16) with 1. cbn iota. unfold lift_packet, connect_dec. cbn [advance1 bind].
  assert (Hbr : is_bytes (str_enc name ++ level :: r)).
  { inversion Hb as [|? ? _ Hb1]; subst. apply is_bytes_app in Hb1. tauto. }
  rewrite (vbi_dec_denotes p len n _ Hd Hl Hbr). cbn [bind]. rewrite str_rt by exact Hn.
  cbn [bind u8_dec]. split.
  - intros ->. reflexivity.
  - intros c r' H. destruct (from_name_and_level name level) as [v|]; [|discriminate].
    apply bind_ok in H. destruct H as ([c' r''] & H & E). inv E.
    do 4 (apply bind_ok in H; destruct H as ([? ?] & ? & H)). inv H. reflexivity.
Qed.

(** ** A 3.1.1 PUBLISH is never understood *)

Lemma btake_eq_len {A} n (l m : list A) : n <= blen l -> btake n l = m -> n = blen m.
Proof. intros H <-. rewrite blen_btake by exact H. reflexivity. Qed.

Lemma publish_v311_never p v h len topic pid payload rest b r :
  48 <= h < 64 -> vbi_denotes len (blen (str_enc topic ++ pid ++ payload)) -> blen len <= 4 ->
  wf_str topic -> is_bytes (pid ++ payload ++ rest) ->
  blen pid = (if qos_eqb (qos_from (N.land h 6 / 2)) AtMostOnce then 0 else 2) ->
  parse_with_version p v (h :: len ++ str_enc topic ++ pid ++ payload ++ rest) = Ok (Publish b, r) ->
  pb_payload b <> Some payload.
Proof.
  intros Hh Hd Hl Ht Hb Hp H.
  assert (Hmax : blen (str_enc topic ++ pid ++ payload) <= vbi_max) by (eapply vbi_denotes_max; eassumption).
  assert (Hbt : is_bytes (str_enc topic ++ pid ++ payload ++ rest)).
  { apply is_bytes_app. split; [|exact Hb]. apply str_enc_bytes, utf8_valid_iff, Ht. }
  unfold parse_with_version in H. replace (h / 16) with 3 in H by lia. cbn iota in H.
  unfold lift_packet in H. apply bind_ok in H. destruct H as ([b' r'] & H & E). inv E.
  unfold publish_dec in H. cbn [get_u8 bind] in H.
  rewrite (vbi_dec_denotes p _ _ _ Hd Hl Hbt) in H. cbn [bind] in H.
  rewrite str_rt in H by exact Ht. cbn [bind] in H.
  apply bind_ok in H. destruct H as ([i r2] & Hi & H).
  assert (Hr2 : r2 = payload ++ rest /\ pid_size i = blen pid).
  { destruct (qos_from (N.land h 6 / 2));
      cbn [qos_eqb qos_u8 N.eqb Pos.eqb] in Hp; unfold qos_eqb in Hp; cbn [qos_u8] in Hp;
      [change (0 =? 0) with true in Hp|change (1 =? 0) with false in Hp
      |change (2 =? 0) with false in Hp|discriminate]; cbn iota in Hp.
    - inv Hi. destruct pid; [|rewrite blen_cons in Hp; lia]. auto.
    - destruct pid as [|x [|y [|]]]; rewrite ?blen_cons, ?blen_nil in Hp; try lia.
      cbn in Hi. inv Hi. auto.
    - destruct pid as [|x [|y [|]]]; rewrite ?blen_cons, ?blen_nil in Hp; try lia.
      cbn in Hi. inv Hi. auto. }
  destruct Hr2 as [-> Hps].
  apply bind_ok in H. destruct H as ([a r3] & Ha & H).
  assert (Hb3 : is_bytes (payload ++ rest)) by (apply is_bytes_app in Hb; tauto).
  destruct (props_dec_size p PacketIncomplete _ publish_props_default publish_props_list _ _ _
              publish_step_bounded eq_refl Hb3 Ha) as (plen & body & Ebody & Hden & Hlen & Hsm & Hsz).
  change (publish_props_size_list a) with (publish_props_list a) in H.
  rewrite small_ids_size in H by exact Hsm. cbn [bind] in H.
  assert (Hbm : blen body <= vbi_max) by (eapply vbi_denotes_max; [eassumption|lia]).
  rewrite vsize_total in H by lia. cbn [bind] in H.
  pose proof (vbi_enc_len (psize (publish_props_list a)) ltac:(lia)) as Hvl.
  apply bind_ok in H. destruct H as (n & Hn & H).
  destruct (blen r3 <? n) eqn:E3; [discriminate|]. inv H. cbn [pb_payload].
  intros E. injection E as E. apply btake_eq_len in E; [|lia]. subst n.
  rewrite !blen_app, blen_str_enc in *. destruct Ht as [_ Ht]. unfold str_size, vbi_max in *.
  rewrite Hps in Hn. unfold usize_sub, two64 in Hn.
  match type of Hn with (if ?c then _ else _) = _ => destruct c eqn:Ec end.
  - injection Hn as Hn. lia.
  - destruct p; [discriminate|]. injection Hn as Hn. lia.
Qed.

(** ** Which complete frames can panic a release build *)

Definition enough (t n : N) : bool :=
  match t with
  | 2 => 2 <=? n
  | 4 | 5 | 6 | 7 => (n =? 2) || (3 <=? n)
  | 8 => false
  | 15 => 1 <=? n
  | _ => true
  end.

Lemma get_u8_nonempty bs : bs <> [] -> get_u8 bs <> Panic.
Proof. destruct bs; [congruence|discriminate]. Qed.
Lemma reason_dec_nonempty bs : bs <> [] -> reason_dec bs <> Panic.
Proof. destruct bs as [|b r]; [congruence|]. intros _. cbn. destruct (reason_of_code b); discriminate. Qed.

Lemma bind_panic {A B} (x : res A) (f : A -> res B) :
  bind x f = Panic -> x = Panic \/ exists a, x = Ok a /\ f a = Panic.
Proof. destruct x; cbn; eauto; discriminate. Qed.

Lemma props_dec_no_panic {A} short step (d : A) bs :
  is_bytes bs -> props_dec Release short step d bs <> Panic.
Proof.
  intros Hb H. pose proof (props_dec_safe Release short step d bs Hb) as Hs. rewrite H in Hs. discriminate.
Qed.

Lemma connack_flags_no_panic bs : bs <> [] -> connack_flags_dec bs <> Panic.
Proof.
  destruct bs as [|b r]; [congruence|]. intros _. unfold connack_flags_dec. cbn. case_if; discriminate.
Qed.
Lemma connack_flags_shape bs sp r : connack_flags_dec bs = Ok (sp, r) -> exists b, bs = b :: r.
Proof.
  destruct bs as [|b t]; [discriminate|]. unfold connack_flags_dec. cbn. case_if; [discriminate|].
  intros H. inv H. eauto.
Qed.

Lemma reason_dec_shape bs rc r : reason_dec bs = Ok (rc, r) -> exists b, bs = b :: r.
Proof.
  destruct bs as [|b t]; [discriminate|]. cbn. destruct (reason_of_code b); [|discriminate].
  intros H. inv H. eauto.
Qed.

Lemma frame_no_panic v h len body rest :
  vbi_denotes len (blen body) -> blen len <= 4 -> is_bytes (h :: body ++ rest) ->
  enough (h / 16) (blen body) = true ->
  parse_with_version Release v (h :: len ++ body ++ rest) <> Panic.
Proof.
  intros Hd Hl Hb He.
  inversion Hb as [|? ? Hh Hbr]; subst.
  assert (Hlen : is_bytes len).
  { clear - Hd. induction Hd; repeat constructor; auto; unfold is_byte; lia. }
  assert (Hall : is_bytes (h :: len ++ body ++ rest)).
  { constructor; [exact Hh|]. apply is_bytes_app. auto. }
  destruct (unchecked_type (h / 16)) eqn:Eu.
  2:{ apply parse_no_panic_release; [exact Hall|]. intros h' t E. inv E. exact Eu. }
  unfold parse_with_version.
  assert (Hcases : h / 16 = 2 \/ (h / 16 = 4 \/ h / 16 = 5 \/ h / 16 = 6 \/ h / 16 = 7) \/
    h / 16 = 14 \/ h / 16 = 15).
  { destruct (h / 16) as [|[[[[]|[]|]|[[]|[]|]|]|[[[]|[]|]|[[]|[]|]|]|]]; cbn in Eu, He;
      try discriminate; auto 10. }
  intros H.
  assert (Hack : forall f, (2 <= blen body /\ (blen body = 2 \/ 3 <= blen body)) ->
            lift_packet f (ack_dec Release (h :: len ++ body ++ rest)) <> Panic).
  { intros f Hn HP. unfold lift_packet in HP. apply bind_panic in HP.
    destruct HP as [HP|([? ?] & _ & HP)]; [|discriminate].
    unfold ack_dec in HP. cbn [advance1 bind] in HP.
    rewrite (vbi_dec_denotes Release _ _ _ Hd Hl Hbr) in HP. cbn [bind] in HP.
    apply bind_panic in HP. destruct HP as [HP|([i r] & Hi & HP)].
    { unfold u16_dec in HP. repeat (case_match; try discriminate). }
    destruct (blen body =? 2) eqn:E2; [discriminate|].
    assert (Hr : r <> [] /\ is_bytes r).
    { destruct body as [|x [|y [|z body]]]; rewrite ?blen_cons, ?blen_nil in *; try lia.
      cbn in Hi. inv Hi. split; [discriminate|]. inversion Hbr as [|? ? _ Hb1]; subst.
      inversion Hb1 as [|? ? _ Hb2]; subst. exact Hb2. }
    apply bind_panic in HP. destruct HP as [HP|([rc r1] & Hrc & HP)]; [apply (reason_dec_nonempty r); tauto|].
    apply reason_dec_shape in Hrc. destruct Hrc as (x & ->).
    apply bind_panic in HP. destruct HP as [HP|([a r2] & _ & HP)]; [|discriminate].
    eapply props_dec_no_panic; [|exact HP]. destruct Hr as [_ Hr]. inversion Hr; assumption. }
  destruct Hcases as [E|[E|[E|E]]].
  - (* CONNACK *)
    rewrite E in *. cbn in He. unfold lift_packet in H. apply bind_panic in H.
    destruct H as [H|([? ?] & _ & H)]; [|discriminate].
    destruct body as [|x [|y body]]; rewrite ?blen_cons, ?blen_nil in He; try (cbn in He; lia).
    inversion Hbr as [|? ? _ Hb1]; subst. inversion Hb1 as [|? ? _ Hb2]; subst.
    destruct (supports_properties v).
    + unfold connack_dec in H. cbn [advance1 bind] in H.
      rewrite (vbi_dec_denotes Release _ _ _ Hd Hl Hbr) in H. cbn [bind] in H.
      apply bind_panic in H. destruct H as [H|([sp r] & Hsp & H)].
      { eapply connack_flags_no_panic; [|exact H]. discriminate. }
      apply connack_flags_shape in Hsp. destruct Hsp as (z & Ez). inv Ez.
      apply bind_panic in H. destruct H as [H|([rc r1] & Hrc & H)].
      { eapply reason_dec_nonempty; [|exact H]. discriminate. }
      apply reason_dec_shape in Hrc. destruct Hrc as (w & Ew). inv Ew.
      apply bind_panic in H. destruct H as [H|([a r2] & _ & H)]; [|discriminate].
      eapply props_dec_no_panic; [exact Hb2|exact H].
    + unfold connack_dec_v3 in H. cbn [advance1 bind] in H.
      rewrite (vbi_dec_denotes Release _ _ _ Hd Hl Hbr) in H. cbn [bind] in H.
      apply bind_panic in H. destruct H as [H|([sp r] & Hsp & H)].
      { eapply connack_flags_no_panic; [|exact H]. discriminate. }
      apply connack_flags_shape in Hsp. destruct Hsp as (z & Ez). inv Ez.
      cbn in H. discriminate.
  - assert (Hn : 2 <= blen body /\ (blen body = 2 \/ 3 <= blen body)).
    { destruct E as [E|[E|[E|E]]]; rewrite E in He; cbn in He; lia. }
    destruct E as [E|[E|[E|E]]]; rewrite E in H; eapply Hack; eassumption.
  - rewrite E in *. unfold lift_packet in H. apply bind_panic in H.
    destruct H as [H|([? ?] & _ & H)]; [|discriminate].
    unfold disconnect_dec in H. cbn [get_u8 bind] in H.
    destruct (negb (N.land h 15 =? 0)); [discriminate|].
    rewrite (vbi_dec_denotes Release _ _ _ Hd Hl Hbr) in H. cbn [bind] in H.
    apply bind_panic in H. destruct H as [H|([rc r] & Hrc & H)].
    { destruct (blen body <? 1) eqn:E1; [discriminate|].
      destruct body; [rewrite blen_nil in E1; lia|]. eapply reason_dec_nonempty; [|exact H]. discriminate. }
    apply bind_panic in H. destruct H as [H|([rc' r'] & Hrc' & H)]; [|discriminate].
    destruct (blen body <? 2) eqn:E2; [discriminate|].
    replace (blen body <? 1) with false in Hrc by lia. apply reason_dec_shape in Hrc.
    destruct Hrc as (x & Ex).
    apply bind_panic in H. destruct H as [H|([a r2] & _ & H)]; [|discriminate].
    eapply props_dec_no_panic; [|exact H]. rewrite Ex in Hbr. inversion Hbr; assumption.
  - rewrite E in *. unfold lift_packet in H. apply bind_panic in H.
    destruct H as [H|([? ?] & _ & H)]; [|discriminate].
    unfold auth_dec in H. cbn [get_u8 bind] in H.
    destruct (negb (N.land h 15 =? 0)); [discriminate|].
    rewrite (vbi_dec_denotes Release _ _ _ Hd Hl Hbr) in H. cbn [bind] in H.
    apply bind_panic in H. destruct H as [H|([rc r] & Hrc & H)].
    { destruct body; [cbn in He; discriminate|]. eapply reason_dec_nonempty; [|exact H]. discriminate. }
    apply reason_dec_shape in Hrc. destruct Hrc as (x & Ex).
    apply bind_panic in H. destruct H as [H|([a r2] & _ & H)]; [|discriminate].
    eapply props_dec_no_panic; [|exact H]. rewrite Ex in Hbr. inversion Hbr; assumption.
Qed.

(** ** Data longer than its length field *)

Lemma bin_dec_len bs d r : is_bytes bs -> bin_dec bs = Ok (d, r) -> blen d < 65536.
Proof.
  intros Hb. unfold bin_dec. destruct bs as [|a [|b t]]; try discriminate. cbv zeta.
  inversion Hb as [|? ? Ha Hb1]; subst. inversion Hb1 as [|? ? Hb2 _]; subst. unfold is_byte in *.
  case_if; [discriminate|]. intros H. inv H. rewrite blen_btake by lia. lia.
Qed.

Lemma str_dec_len bs d r : is_bytes bs -> str_dec bs = Ok (d, r) -> blen d < 65536.
Proof.
  intros Hb. unfold str_dec. destruct bs as [|a [|b t]]; try discriminate. cbv zeta.
  inversion Hb as [|? ? Ha Hb1]; subst. inversion Hb1 as [|? ? Hb2 _]; subst. unfold is_byte in *.
  case_if; [discriminate|]. case_if; [|discriminate]. intros H. inv H. rewrite blen_btake by lia. lia.
Qed.

(** ** Reason codes *)

Lemma reason_sweep : forallb (fun c =>
    match reason_of_code c with Some r => get_code r =? c | None => true end)
  (map N.of_nat (seq 0 256)) = true.
Proof. vm_compute. reflexivity. Qed.

Lemma reason_code_sound c r : c < 256 -> reason_of_code c = Some r -> get_code r = c.
Proof.
  intros Hc H. pose proof reason_sweep as S. rewrite forallb_forall in S.
  assert (Hin : In c (map N.of_nat (seq 0 256))).
  { apply in_map_iff. exists (N.to_nat c). split; [apply N2Nat.id|]. apply in_seq. lia. }
  specialize (S c Hin). rewrite H in S. apply N.eqb_eq, S.
Qed.

Lemma reason_code_complete r : reason_of_code (get_code r) = Some (canon_reason r).
Proof. destruct r; reflexivity. Qed.

(** ** The completeness check *)

Lemma check_iff p h len n rest : vbi_denotes len n -> blen len <= 4 ->
  (forall len', vbi_denotes len' n -> blen len <= blen len') ->
  (check p (h :: len ++ rest) = Ok tt <-> n <= blen rest) /\
  (check p (h :: len ++ rest) = Err PacketIncomplete <-> blen rest < n).
Proof.
  intros Hd Hl Hmin. destruct (min_len _ _ Hd Hl Hmin) as [-> Hm].
  rewrite check_full by exact Hm. destruct (n <=? blen rest) eqn:E; split; split; intros H;
    try discriminate; try reflexivity; lia.
Qed.

(** ** The disconnect of MQTT 3.1.1 *)
Lemma disconnect_v311 p v r :
  parse_with_version p v (0xe0 :: 0 :: r) =
  Ok (Disconnect (Mk_disconnect_packet NormalDisconnection None), r).
Proof. reflexivity. Qed.
