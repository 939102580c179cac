(** Why packets are refused, and which panic the decoder (for C103 and C10). *)
From Verif Require Import Base Utf8 Codec SpecCodec Tac CodecFacts Property PacketProps Packets PacketsFacts PacketsRoundtrip ParseFacts WireFacts.

(** ** Errors *)
Definition errs {A} (P : error -> Prop) (x : res A) : Prop := match x with Err e => P e | _ => True end.
Lemma errs_bind {A B} P (x : res A) (k : A -> res B) : errs P x -> (forall a, errs P (k a)) -> errs P (bind x k).
Proof. destruct x; cbn; auto. Qed.
Lemma errs_weak {A} (P Q : error -> Prop) (x : res A) : (forall e, P e -> Q e) -> errs P x -> errs Q x.
Proof. destruct x; cbn; auto. Qed.
Definition usual (e : error) : Prop := e = PacketIncomplete \/ e = EReason MalformedPacket.

Lemma u32_errs p a b : errs usual (u32_mul p a b) /\ errs usual (u32_add p a b).
Proof. unfold u32_mul, u32_add. split; destruct p; cbv zeta; repeat case_if; exact I. Qed.
Lemma usize_errs p a b : errs usual (usize_sub p a b).
Proof. unfold usize_sub. destruct p; repeat case_if; exact I. Qed.
Lemma vbi_errs p bs : errs usual (vbi_dec p bs).
Proof.
  unfold vbi_dec. generalize 1 at 1. generalize 0. induction bs as [|b r IH]; intros v m; cbn [vbi_dec_loop]; [now left|].
  apply errs_bind; [apply u32_errs|]. intros t. apply errs_bind; [apply u32_errs|]. intros v'. case_if; [now right|].
  apply errs_bind; [apply u32_errs|]. intros m'. case_if; [exact I|apply IH].
Qed.
Lemma u8_errs bs : errs usual (u8_dec bs).
Proof. destruct bs; cbn; [now left|exact I]. Qed.
Lemma u16_errs bs : errs usual (u16_dec bs).
Proof. destruct bs as [|a [|b r]]; cbn; try exact I; now left. Qed.
Lemma u32d_errs bs : errs usual (u32_dec bs).
Proof. destruct bs as [|a [|b [|c [|d r]]]]; cbn; try exact I; now left. Qed.
Lemma bool_errs bs : errs usual (bool_dec bs).
Proof. destruct bs; cbn; [now left|exact I]. Qed.
Lemma bin_errs bs : errs usual (bin_dec bs).
Proof. destruct bs as [|a [|b r]]; cbn; try (now left). case_if; [now right|exact I]. Qed.
Lemma str_errs bs : errs usual (str_dec bs).
Proof. destruct bs as [|a [|b r]]; cbn; try (now left). case_if; [now right|]. case_if; [exact I|now right]. Qed.
Lemma get_u8_errs bs : errs usual (get_u8 bs).
Proof. destruct bs; exact I. Qed.
Lemma advance1_errs bs : errs usual (advance1 bs).
Proof. destruct bs; exact I. Qed.
Lemma reason_errs bs : errs usual (reason_dec bs).
Proof. unfold reason_dec. apply errs_bind; [apply get_u8_errs|]. intros [c r]. destruct (reason_of_code c); [exact I|now right]. Qed.
Ltac basic :=
  first [exact I | now left | now right | apply vbi_errs | apply u8_errs | apply u16_errs | apply u32d_errs | apply bool_errs | apply bin_errs
        | apply str_errs | apply get_u8_errs | apply advance1_errs | apply reason_errs | apply usize_errs].
Ltac er :=
  repeat first
    [ progress basic
    | match goal with |- errs _ (bind ?x ?k) => apply (errs_bind _ x k); [|intros] end
    | match goal with |- errs _ (let '(_, _) := ?x in _) => destruct x end
    | match goal with |- errs _ (if ?b then _ else _) => destruct b end
    | progress cbv zeta ].
Lemma lift_errs {A} P (f : A -> property) x : errs P x -> errs P (lift f x).
Proof. destruct x as [[]| |]; cbn; auto. Qed.
Lemma prop_errs p id bs : errs usual (prop_dec_with_id p id bs).
Proof.
  unfold prop_dec_with_id. repeat (match goal with |- errs _ (match ?x with _ => _ end) => is_var x; destruct x end);
    try (now right); try (apply lift_errs; basic). er.
Qed.
Lemma props_loop_errs {A} p (step : A -> property -> option A) fuel : forall acc bs, errs usual (props_loop p step fuel acc bs).
Proof.
  induction fuel as [|f IH]; intros acc [|b bs]; cbn [props_loop]; try exact I. unfold prop_dec.
  apply errs_bind; [er; apply prop_errs|]. intros [q r]. destruct (step acc q); [apply IH|now right].
Qed.
Lemma props_dec_errs {A} p short (step : A -> property -> option A) d bs : usual short -> errs usual (props_dec p short step d bs).
Proof. intros Hs. unfold props_dec. er; [exact Hs|apply props_loop_errs]. Qed.
Lemma props_dec_errs_i {A} p (step : A -> property -> option A) d bs : errs usual (props_dec p PacketIncomplete step d bs).
Proof. apply props_dec_errs. now left. Qed.
Lemma props_dec_errs_m {A} p (step : A -> property -> option A) d bs : errs usual (props_dec p (EReason MalformedPacket) step d bs).
Proof. apply props_dec_errs. now right. Qed.
Lemma connect_flags_errs bs : errs usual (connect_flags_dec bs).
Proof.
  unfold connect_flags_dec. destruct bs as [|b r]; [now left|]. apply errs_bind; [|intros; exact I]. unfold connect_flags_of_byte.
  case_if; [now right|]. cbv zeta. case_match; try exact I. now right.
Qed.
Lemma connack_flags_errs bs : errs usual (connack_flags_dec bs).
Proof. unfold connack_flags_dec. er. Qed.
Ltac er2 := er; repeat first [apply props_dec_errs_i | apply props_dec_errs_m | apply connect_flags_errs | apply connack_flags_errs | progress er].
Definition refusal (t : N) (e : error) : Prop :=
  usual e \/ (t = 1 /\ e = EReason UnsupportedProtocolVersion) \/ ((t = 8 \/ t = 9 \/ t = 10 \/ t = 11) /\ e = EReason ProtocolError).
Lemma errs_usual {A} t (x : res A) : errs usual x -> errs (refusal t) x.
Proof. apply errs_weak. intros e H. now left. Qed.
Lemma connect_payload_errs p v f bs : errs usual (connect_payload_dec p v f bs).
Proof. unfold connect_payload_dec. er2. Qed.
Lemma vbi_size_errs n : errs usual (vbi_size n).
Proof. unfold vbi_size. repeat case_if; exact I. Qed.
Lemma vsize_errs n : errs usual (vsize n).
Proof. apply vbi_size_errs. Qed.
Lemma props_size_errs l : errs usual (props_size l).
Proof.
  induction l as [|q l IH]; cbn [props_size]; [exact I|]. apply errs_bind; [|intros; apply errs_bind; [exact IH|intros; exact I]].
  unfold prop_size. apply errs_bind; [apply vbi_size_errs|]. intros a. apply errs_bind; [|intros; exact I]. destruct q; cbn [prop_val_size]; try exact I; apply vbi_size_errs.
Qed.
Lemma payload_loop_errs {A} P (dec : bytes -> res (A * bytes)) next : (forall bs, errs P (dec bs)) -> forall fuel bs, errs P (payload_loop dec fuel next bs).
Proof.
  intros Hd. induction fuel as [|f IH]; intros bs; cbn [payload_loop]; (case_if; [|exact I]); [exact I|].
  apply errs_bind; [apply Hd|]. intros [x r]. apply errs_bind; [apply IH|]. intros [xs r']. exact I.
Qed.
Lemma connect_errs p bs : errs (refusal 1) (connect_dec p bs).
Proof.
  unfold connect_dec. repeat first [apply errs_bind; [apply errs_usual; basic|]; intros ?]. 
  match goal with |- errs _ (let '(_, _) := ?x in _) => destruct x end. 
  apply errs_bind; [apply errs_usual; basic|]. intros [name r1]. apply errs_bind; [apply errs_usual; basic|]. intros [level r2].
  destruct (from_name_and_level name level) as [v|]; [|right; left; auto]. apply errs_usual. er2. apply connect_payload_errs.
Qed.
Lemma publish_errs p bs : errs usual (publish_dec p bs).
Proof.
  unfold publish_dec. er2; try apply vsize_errs; try apply props_size_errs.
  case_match; er.
Qed.
Lemma ack_errs p bs : errs usual (ack_dec p bs).
Proof. unfold ack_dec. er2. Qed.
Lemma sub_filter_errs bs : errs (refusal 8) (sub_filter_dec bs).
Proof.
  unfold sub_filter_dec, sub_options_dec. apply errs_bind; [apply errs_usual; basic|]. intros [s r]. apply errs_bind; [|intros [? ?]; exact I].
  apply errs_bind; [apply errs_usual; basic|]. intros [o r']. apply errs_bind; [|intros; exact I].
  unfold sub_options_of_byte. repeat case_match; try exact I; right; right; auto.
Qed.
Lemma subscribe_errs p bs : errs (refusal 8) (subscribe_dec p bs).
Proof.
  unfold subscribe_dec. apply errs_bind; [apply errs_usual; basic|]. intros r. apply errs_bind; [apply errs_usual; basic|]. intros [n r1]. cbv zeta.
  apply errs_bind; [apply errs_usual; basic|]. intros [i r2]. apply errs_bind; [apply errs_usual, props_dec_errs_m|]. intros [a r3].
  case_if; [right; right; auto|]. apply errs_bind; [apply errs_usual; basic|]. intros x. apply errs_bind; [apply payload_loop_errs, sub_filter_errs|]. intros [pl r4]. exact I.
Qed.
Lemma suback_errs p bs : errs (refusal 9) (suback_dec p bs).
Proof.
  unfold suback_dec. apply errs_bind; [apply errs_usual; basic|]. intros r. apply errs_bind; [apply errs_usual; basic|]. intros [n r1]. cbv zeta.
  apply errs_bind; [apply errs_usual; basic|]. intros [i r2]. apply errs_bind; [apply errs_usual, props_dec_errs_i|]. intros [a r3].
  case_if; [right; right; auto|]. apply errs_usual. er. apply payload_loop_errs. intros; basic.
Qed.
Lemma unsubscribe_errs p bs : errs (refusal 10) (unsubscribe_dec p bs).
Proof.
  unfold unsubscribe_dec. apply errs_bind; [apply errs_usual; basic|]. intros r. apply errs_bind; [apply errs_usual; basic|]. intros [n r1]. cbv zeta.
  apply errs_bind; [apply errs_usual; basic|]. intros [i r2]. apply errs_bind; [apply errs_usual, props_dec_errs_i|]. intros [a r3].
  case_if; [right; right; auto|]. apply errs_usual. er. apply payload_loop_errs. intros; basic.
Qed.
Lemma unsuback_errs p bs : errs (refusal 11) (unsuback_dec p bs).
Proof.
  unfold unsuback_dec. apply errs_bind; [apply errs_usual; basic|]. intros r. apply errs_bind; [apply errs_usual; basic|]. intros [n r1]. cbv zeta.
  apply errs_bind; [apply errs_usual; basic|]. intros [i r2]. apply errs_bind; [apply errs_usual, props_dec_errs_i|]. intros [a r3].
  case_if; [right; right; auto|]. apply errs_usual. er. apply payload_loop_errs. intros; basic.
Qed.
Lemma suback_v3_errs p bs : errs usual (suback_dec_v3 p bs).
Proof. unfold suback_dec_v3. er. apply payload_loop_errs. intros b. unfold suback_v3_code. er. Qed.
Lemma lift_packet_errs {A} P (f : A -> packet) x : errs P x -> errs P (lift_packet f x).
Proof. destruct x as [[]| |]; cbn; auto. Qed.
Lemma parse_errs p v h bs : errs (refusal (h / 16)) (parse_with_version p v (h :: bs)).
Proof.
  unfold parse_with_version. destruct (h / 16) as [|[[[[]|[]|]|[[]|[]|]|]|[[[]|[]|]|[[]|[]|]|]|]];
    try (left; now right); apply lift_packet_errs; try apply connect_errs; try (apply errs_usual, publish_errs); try (apply errs_usual, ack_errs);
    try apply subscribe_errs; try apply unsubscribe_errs; try (destruct (supports_properties v)); try apply suback_errs; try apply unsuback_errs;
    apply errs_usual; try apply suback_v3_errs.
  all: unfold connack_dec, connack_dec_v3, unsuback_dec_v3, ping_dec, disconnect_dec, auth_dec; er2.
Qed.

(** ** Panics *)
(** A decoder that succeeds has looked at what it consumed only. *)
Lemma str_dec_split bs s r : str_dec bs = Ok (s, r) -> exists q, bs = q ++ r /\ forall z, str_dec (q ++ z) = Ok (s, z).
Proof.
  destruct bs as [|a [|b bs]]; try discriminate. cbn [str_dec]. destruct (blen bs <? a * 256 + b) eqn:El; [discriminate|].
  destruct (utf8_valid (btake (a * 256 + b) bs)) eqn:Eu; [|discriminate]. intros H. inv H.
  exists (a :: b :: btake (a * 256 + b) bs). split; [cbn; now rewrite btake_bdrop|]. intros z. cbn [app str_dec].
  assert (E : blen (btake (a * 256 + b) bs) = a * 256 + b) by (apply blen_btake; lia).
  rewrite blen_app, E. replace (a * 256 + b + blen z <? a * 256 + b) with false by lia.
  pose proof (btake_app (btake (a * 256 + b) bs) z) as H1. pose proof (bdrop_app (btake (a * 256 + b) bs) z) as H2. rewrite E in H1, H2.
  rewrite H1, H2, Eu. reflexivity.
Qed.
Lemma props_dec_split {A} p short (step : A -> property -> option A) d bs a r : is_bytes bs -> props_dec p short step d bs = Ok (a, r) ->
  exists q, bs = q ++ r /\ forall z, is_bytes z -> props_dec p short step d (q ++ z) = Ok (a, z).
Proof.
  intros Hb. unfold props_dec. intros H. destruct (vbi_dec p bs) as [[n r1]| |] eqn:Ev; cbn [bind] in H; try discriminate H.
  destruct (vbi_dec_ok _ _ _ _ Hb Ev) as (pre & -> & Hd & (_ & Hl) & _). apply is_bytes_app in Hb as (_ & Hr1).
  destruct (n =? 0) eqn:En.
  { inv H. exists pre. split; [reflexivity|]. intros z Hz. rewrite (vbi_dec_denotes p _ _ _ Hd Hl Hz). cbn [bind]. rewrite En. reflexivity. }
  destruct (blen r1 <? n) eqn:El; [discriminate|].
  destruct (props_loop p step (N.to_nat n) d (btake n r1)) as [a'| |] eqn:Ep; cbn [bind] in H; try discriminate H. inv H.
  exists (pre ++ btake n r1). split; [rewrite <- app_assoc, btake_bdrop; reflexivity|]. intros z Hz. rewrite <- app_assoc.
  assert (E : blen (btake n r1) = n) by (apply blen_btake; lia).
  assert (Hz' : is_bytes (btake n r1 ++ z)).
  { apply is_bytes_app. split; [|exact Hz]. rewrite <- (btake_bdrop n r1) in Hr1. apply is_bytes_app in Hr1. tauto. }
  rewrite (vbi_dec_denotes p _ _ _ Hd Hl Hz'). cbn [bind]. rewrite En, blen_app, E. replace (n + blen z <? n) with false by lia.
  pose proof (btake_app (btake n r1) z) as H1. pose proof (bdrop_app (btake n r1) z) as H2. rewrite E in H1, H2. rewrite H1, H2, Ep. reflexivity.
Qed.
Lemma snoc_suffix {A} (q r : list A) bs x : bs ++ [x] = q ++ r -> r = [] \/ exists r', r = r' ++ [x] /\ bs = q ++ r'.
Proof.
  intros H. destruct r as [|y r] using rev_ind; [now left|]. clear IHr. right. exists r. rewrite app_assoc in H.
  apply app_inj_tail in H as (-> & ->). auto.
Qed.

(** A SUBSCRIBE panics the decoder exactly if it lacks its last byte of options. *)
Lemma sub_filter_panic bs : sub_filter_dec bs = Panic <-> exists s, str_dec bs = Ok (s, []).
Proof.
  unfold sub_filter_dec, sub_options_dec. split.
  - destruct (str_dec bs) as [[s r]| |] eqn:E; cbn [bind]; try discriminate.
    + destruct r as [|o r]; [eauto|]. cbn [get_u8 bind]. destruct (sub_options_of_byte o) eqn:Eo; cbn [bind]; try discriminate.
      unfold sub_options_of_byte in Eo. repeat (case_match; try discriminate).
    + pose proof (str_safe bs) as Hs. rewrite E in Hs. discriminate.
  - intros (s & ->). reflexivity.
Qed.
Lemma str_dec_snoc bs s r : str_dec (bs ++ [0]) = Ok (s, r) -> r = [] \/ exists r', r = r' ++ [0] /\ str_dec bs = Ok (s, r').
Proof.
  intros H. destruct (str_dec_split _ _ _ H) as (q & E & Hq). destruct (snoc_suffix _ _ _ _ E) as [->|(r' & -> & ->)]; [now left|].
  right. exists r'. split; [reflexivity|]. apply Hq.
Qed.
Lemma str_dec_snoc_ok bs s r : str_dec bs = Ok (s, r) -> str_dec (bs ++ [0]) = Ok (s, r ++ [0]).
Proof. intros H. destruct (str_dec_split _ _ _ H) as (q & -> & Hq). rewrite <- app_assoc. apply Hq. Qed.
Lemma loop_nil {A} (dec : bytes -> res (A * bytes)) f n : payload_loop dec f n [] = Ok ([], []).
Proof. destruct f; cbn [payload_loop]; replace (n <? blen []) with false by (rewrite blen_nil; lia); reflexivity. Qed.
Lemma loop_panic next : forall f f' bs, (length bs < f)%nat -> (length bs + 1 < f')%nat ->
  (payload_loop sub_filter_dec f next bs = Panic <-> exists l, payload_loop sub_filter_dec f' (next + 1) (bs ++ [0]) = Ok (l, [])).
Proof.
  induction f as [|f IH]; intros f' bs Hf Hf'; [lia|]. destruct f' as [|f']; [lia|]. cbn [payload_loop].
  replace (next + 1 <? blen (bs ++ [0])) with (next <? blen bs) by (rewrite blen_app, blen_cons, blen_nil; lia).
  destruct (next <? blen bs) eqn:En.
  2:{ split; [discriminate|]. intros (l & H). inv H. destruct bs; discriminate. }
  destruct (str_dec bs) as [[s r]| |] eqn:Es.
  - pose proof (str_dec_shrinks _ _ _ Es) as Hsh. pose proof (str_dec_snoc_ok _ _ _ Es) as Es'.
    destruct r as [|o r].
    + assert (H : sub_filter_dec bs = Panic) by (apply sub_filter_panic; eauto). rewrite H. cbn [bind]. split; [intros _|reflexivity].
      unfold sub_filter_dec, sub_options_dec. rewrite Es'. cbn [app bind get_u8]. exists [(s, Mk_sub_options AtMostOnce false false SendRetained)].
      change (sub_options_of_byte 0) with (Ok (Mk_sub_options AtMostOnce false false SendRetained)). cbn [bind]. rewrite loop_nil. reflexivity.
    + assert (H : forall x, sub_filter_dec bs = x -> sub_filter_dec (bs ++ [0]) = match x with Ok (y, q) => Ok (y, q ++ [0]) | Err e => Err e | Panic => Panic end).
      { intros x <-. unfold sub_filter_dec, sub_options_dec. rewrite Es, Es'. cbn. destruct (sub_options_of_byte o); reflexivity. }
      destruct (sub_filter_dec bs) as [[y q]| |] eqn:Ey.
      * rewrite (H _ eq_refl). cbn [bind].
        assert (q = r). { unfold sub_filter_dec, sub_options_dec in Ey. rewrite Es in Ey. cbn in Ey. destruct (sub_options_of_byte o); cbn in Ey; congruence. } subst q.
        cbn [length] in Hsh. specialize (IH f' r ltac:(lia) ltac:(lia)).
        destruct (payload_loop sub_filter_dec f next r) as [[l r']| |] eqn:El; cbn [bind].
        -- split; [discriminate|]. intros (l' & H'). destruct (payload_loop sub_filter_dec f' (next + 1) (r ++ [0])) as [[l2 r2]| |] eqn:E2; cbn [bind] in H'; try discriminate H'.
           inv H'. enough (Ok (l, r') = Panic (A := list sub_filter * bytes)) by discriminate. apply IH. eauto.
        -- split; [discriminate|]. intros (l' & H'). destruct (payload_loop sub_filter_dec f' (next + 1) (r ++ [0])) as [[l2 r2]| |] eqn:E2; cbn [bind] in H'; try discriminate H'.
           inv H'. enough (Err e = Panic (A := list sub_filter * bytes)) by discriminate. apply IH. eauto.
        -- split; [intros _|reflexivity]. destruct (proj1 IH eq_refl) as (l & ->). cbn [bind]. eauto.
      * rewrite (H _ eq_refl). cbn [bind]. split; [discriminate|intros (l & E); discriminate].
      * apply sub_filter_panic in Ey as (s' & Ey). congruence.
  - assert (H : sub_filter_dec bs = Err e) by (unfold sub_filter_dec; rewrite Es; reflexivity). rewrite H. cbn [bind]. split; [discriminate|].
    intros (l & H'). destruct (str_dec (bs ++ [0])) as [[s r]| |] eqn:E2; unfold sub_filter_dec, sub_options_dec in H'; rewrite E2 in H'; cbn [bind] in H'; try discriminate H'.
    destruct (str_dec_snoc _ _ _ E2) as [->|(r' & _ & E3)]; [discriminate H'|congruence].
  - pose proof (str_safe bs) as Hs. rewrite Es in Hs. discriminate.
Qed.
Lemma denotes_bytes len n : vbi_denotes len n -> is_bytes len.
Proof. intros Hd. induction Hd; constructor; try (unfold is_byte; lia); [constructor|assumption]. Qed.
Section Frame.
Variables (v : version) (h : N) (len body rest : bytes).
Hypotheses (Hd : vbi_denotes len (blen body)) (Hl : blen len <= 4) (Hb : is_bytes (h :: body ++ rest)).
Let Hr : is_bytes (body ++ rest).
Proof. now inversion Hb. Qed.
Lemma zero_byte : is_bytes [0].
Proof. constructor; [reflexivity|constructor]. Qed.
Lemma frame_vbi z : is_bytes z -> vbi_dec Release (len ++ body ++ rest ++ z) = Ok (blen body, body ++ rest ++ z).
Proof. intros Hz. apply vbi_dec_denotes; auto. rewrite app_assoc. apply is_bytes_app. auto. Qed.
Lemma frame_vbi_nil : vbi_dec Release (len ++ body ++ rest) = Ok (blen body, body ++ rest).
Proof. now apply vbi_dec_denotes. Qed.

Lemma subscribe_panic : subscribe_dec Release (h :: len ++ body ++ rest) = Panic <->
  exists s, subscribe_dec Release (h :: len ++ body ++ rest ++ [0]) = Ok (s, []).
Proof.
  unfold subscribe_dec. cbn [advance1 bind]. rewrite frame_vbi_nil, (frame_vbi [0] zero_byte). cbn [bind]. cbv zeta.
  rewrite usize_sub_body. replace (usize_sub Release (blen (body ++ rest ++ [0])) (blen body)) with (Ok (blen rest + 1)).
  2:{ rewrite usize_sub_body, blen_app, blen_cons, blen_nil. reflexivity. }
  rewrite (app_assoc body rest [0]). generalize Hr. generalize (body ++ rest) as r. intros r Hbr. cbn [bind].
  destruct r as [|a [|b r]]; cbn [app u16_dec bind].
  - split; [discriminate|intros (s & E); discriminate].
  - split; [discriminate|intros (s & E)]. cbn in E. discriminate.
  - assert (Hb2 : is_bytes r) by (inversion Hbr as [|? ? _ Hx]; now inversion Hx).
    assert (Hb0 : is_bytes (r ++ [0])) by (apply is_bytes_app; split; [exact Hb2|apply zero_byte]).
    set (dec := props_dec Release (EReason MalformedPacket) subscribe_props_step subscribe_props_default).
    destruct (dec r) as [[pr r3]| |] eqn:Ep; cbn [bind].
    + destruct (props_dec_split _ _ _ _ _ _ _ Hb2 Ep) as (q & -> & Hq). rewrite <- app_assoc.
      assert (Hz : is_bytes (r3 ++ [0])) by (rewrite <- app_assoc in Hb0; apply is_bytes_app in Hb0; tauto).
      replace (dec (q ++ r3 ++ [0])) with (Ok (A := subscribe_props * bytes) (pr, r3 ++ [0])) by (symmetry; apply Hq; exact Hz). cbn [bind].
      replace (blen (r3 ++ [0]) =? 0) with false by (rewrite blen_app, blen_cons, blen_nil; lia).
      destruct (blen r3 =? 0) eqn:E3.
      * assert (r3 = []) by (destruct r3; [reflexivity|rewrite blen_cons in E3; lia]). subst r3. split; [discriminate|]. intros (s & E). cbn [app payload_loop] in E.
        replace (blen rest + 1 <? blen [0]) with false in E by (rewrite blen_cons, blen_nil; lia). discriminate.
      * pose proof (loop_panic (blen rest) (S (length r3)) (S (length (r3 ++ [0]))) r3 ltac:(lia) ltac:(rewrite app_length; cbn; lia)) as HL.
        destruct (payload_loop sub_filter_dec (S (length r3)) (blen rest) r3) as [[l r4]| |]; cbn [bind].
        -- split; [discriminate|]. intros (s & E).
           destruct (payload_loop sub_filter_dec (S (length (r3 ++ [0]))) (blen rest + 1) (r3 ++ [0])) as [[l2 r5]| |]; cbn [bind] in E; try discriminate E.
           inv E. discriminate (proj2 HL (ex_intro _ l2 eq_refl)).
        -- split; [discriminate|]. intros (s & E).
           destruct (payload_loop sub_filter_dec (S (length (r3 ++ [0]))) (blen rest + 1) (r3 ++ [0])) as [[l2 r5]| |]; cbn [bind] in E; try discriminate E.
           inv E. discriminate (proj2 HL (ex_intro _ l2 eq_refl)).
        -- split; [intros _|reflexivity]. destruct (proj1 HL eq_refl) as (l & ->). cbn [bind]. eauto.
    + split; [discriminate|]. intros (s & E). destruct (dec (r ++ [0])) as [[pr r3]| |] eqn:E0; cbn [bind] in E; try discriminate E.
      destruct (props_dec_split _ _ _ _ _ _ _ Hb0 E0) as (q & Eq & Hq). destruct (snoc_suffix _ _ _ _ Eq) as [->|(r' & -> & ->)]; [discriminate E|].
      assert (dec (q ++ r') = Ok (pr, r')) by (apply Hq; apply is_bytes_app in Hb2; tauto). congruence.
    + exfalso. exact (props_dec_no_panic _ _ _ _ Hb2 Ep).
Qed.
Lemma lift_panic {A} (f : A -> packet) (x : res (A * bytes)) : lift_packet f x = Panic <-> x = Panic.
Proof. destruct x as [[]| |]; cbn; split; congruence. Qed.
Lemma land_15 : (N.land h 15 =? 0) = (h mod 16 =? 0).
Proof. change 15 with (N.ones 4). rewrite N.land_ones. reflexivity. Qed.
Lemma connack_flags_spec b r : b < 256 ->
  (b <= 1 /\ connack_flags_dec (b :: r) = Ok (b =? 1, r)) \/ (1 < b /\ connack_flags_dec (b :: r) = Err (EReason MalformedPacket)).
Proof.
  intros H. unfold connack_flags_dec. cbn [get_u8 bind]. destruct (N.le_gt_cases b 1) as [H1|H1].
  - left. split; [exact H1|]. destruct (N.eq_dec b 0) as [->|]; [reflexivity|]. replace b with 1 by lia. reflexivity.
  - right. split; [exact H1|]. pose proof (sweep 256 (fun x => (x <=? 1) || negb (N.land 254 x =? 0)) ltac:(vm_compute; reflexivity) b H) as S. cbv beta in S.
    replace (b <=? 1) with false in S by lia. cbn [orb] in S. rewrite S. reflexivity.
Qed.
(** The first byte of the rest of a CONNACK, then its reason. *)
Lemma connack_panic : lift_packet ConnAck (if supports_properties v then connack_dec Release (h :: len ++ body ++ rest) else connack_dec_v3 Release (h :: len ++ body ++ rest)) = Panic
  <-> body ++ rest = [] \/ exists b, body ++ rest = [b] /\ b <= 1.
Proof.
  rewrite lift_panic. unfold connack_dec, connack_dec_v3. cbn [advance1 bind]. rewrite frame_vbi_nil. cbn [bind].
  generalize Hr. generalize (body ++ rest) as r. intros r Hbr. destruct r as [|b r].
  { split; [auto|]. intros _. destruct (supports_properties v); reflexivity. }
  inversion Hbr as [|? ? Hbb Hbr']; subst. unfold is_byte in Hbb. destruct (connack_flags_spec b r Hbb) as [(H1 & ->)|(H1 & ->)]; cbn [bind].
  2:{ destruct (supports_properties v); (split; [discriminate|intros [E|(b' & E & H2)]; inv E; lia]). }
  destruct r as [|c r].
  { split; [right; exists b; auto|]. intros _. destruct (supports_properties v); reflexivity. }
  inversion Hbr' as [|? ? _ Hbr2]; subst. split; [|intros [E|(b' & E & _)]; discriminate].
  destruct (supports_properties v); [|discriminate]. intros H. apply bind_panic in H as [H|([rc r1] & Hrc & H)].
  - exfalso. eapply reason_dec_nonempty; [|exact H]; discriminate.
  - apply reason_dec_shape in Hrc as (b' & Hrc). inv Hrc. apply bind_panic in H as [H|([a r2] & _ & H)]; [|discriminate].
    exfalso. exact (props_dec_no_panic _ _ _ _ Hbr2 H).
Qed.
Lemma ack_panic f : lift_packet f (ack_dec Release (h :: len ++ body ++ rest)) = Panic <-> blen body < 2 /\ blen (body ++ rest) = 2.
Proof.
  rewrite lift_panic. unfold ack_dec. cbn [advance1 bind]. rewrite frame_vbi_nil. cbn [bind].
  assert (Hle : blen body <= blen (body ++ rest)) by (rewrite blen_app; lia).
  generalize dependent Hr. revert Hle. generalize (body ++ rest) as r. intros r Hle Hbr.
  destruct r as [|a [|b r]]; cbn [u16_dec bind]; rewrite ?blen_cons, ?blen_nil in *.
  - split; [discriminate|lia].
  - split; [discriminate|lia].
  - destruct (blen body =? 2) eqn:E2; [split; [discriminate|lia]|]. destruct r as [|c r].
    + cbn [reason_dec get_u8 bind]. rewrite blen_nil in *. split; [lia|reflexivity].
    + split; [|rewrite blen_cons; lia]. intros H. apply bind_panic in H as [H|([rc r1] & Hrc & H)].
      * exfalso. eapply reason_dec_nonempty; [|exact H]; discriminate.
      * apply reason_dec_shape in Hrc as (b' & Hrc). inv Hrc. apply bind_panic in H as [H|([pr r2] & _ & H)]; [|discriminate].
        exfalso. apply (props_dec_no_panic _ _ _ _) in H; [exact H|]. now apply (Forall_inv_tail (Forall_inv_tail (Forall_inv_tail Hbr))).
Qed.
Lemma disconnect_panic : lift_packet Disconnect (disconnect_dec Release (h :: len ++ body ++ rest)) <> Panic.
Proof.
  rewrite lift_panic. unfold disconnect_dec. cbn [get_u8 bind]. case_if; [discriminate|]. rewrite frame_vbi_nil. cbn [bind]. intros H.
  assert (Hle : blen body <= blen (body ++ rest)) by (rewrite blen_app; lia).
  apply bind_panic in H as [H|([rc r1] & Hrc & H)].
  - destruct (blen body <? 1) eqn:E; [discriminate|]. apply (reason_dec_nonempty (body ++ rest)); [|exact H]. intros E0. rewrite E0, blen_nil in Hle. lia.
  - apply bind_panic in H as [H|([pr r2] & _ & H)]; [|discriminate]. destruct (blen body <? 2) eqn:E; [discriminate|].
    apply bind_panic in H as [H|([a r3] & _ & H)]; [|discriminate]. apply props_dec_no_panic in H; [exact H|].
    destruct (blen body <? 1) eqn:E1; [inv Hrc; exact Hr|]. apply reason_dec_shape in Hrc as (b & Hrc). rewrite Hrc in Hr. now inversion Hr.
Qed.
Lemma auth_panic : lift_packet Auth (auth_dec Release (h :: len ++ body ++ rest)) = Panic <-> h mod 16 = 0 /\ body ++ rest = [].
Proof.
  rewrite lift_panic. unfold auth_dec. cbn [get_u8 bind]. rewrite land_15. destruct (h mod 16 =? 0) eqn:E; cbn [negb].
  2:{ split; [discriminate|]. lia. }
  rewrite frame_vbi_nil. cbn [bind]. generalize Hr. generalize (body ++ rest) as r. intros r Hbr. destruct r as [|b r].
  - split; [|reflexivity]. intros _. split; [lia|reflexivity].
  - split; [|intros (_ & H); discriminate]. intros H. apply bind_panic in H as [H|([rc r1] & Hrc & H)].
    + exfalso. eapply reason_dec_nonempty; [|exact H]; discriminate.
    + apply reason_dec_shape in Hrc as (b' & Hrc). inv Hrc. apply bind_panic in H as [H|([pr r2] & _ & H)]; [|discriminate].
      exfalso. apply props_dec_no_panic in H; [exact H|]. now inversion Hbr.
Qed.
Lemma frame_panics : parse_with_version Release v (h :: len ++ body ++ rest) = Panic <->
  (h / 16 = 2 /\ (body ++ rest = [] \/ exists b, body ++ rest = [b] /\ b <= 1)) \/
  (4 <= h / 16 <= 7 /\ blen body < 2 /\ blen (body ++ rest) = 2) \/
  (h / 16 = 8 /\ exists s, parse_with_version Release v (h :: len ++ body ++ rest ++ [0]) = Ok (Subscribe s, [])) \/
  (h / 16 = 15 /\ h mod 16 = 0 /\ body ++ rest = []).
Proof.
  assert (Hall : is_bytes (h :: len ++ body ++ rest)).
  { assert (Hlen : is_bytes len) by exact (denotes_bytes _ _ Hd).
    inversion Hb; subst. constructor; [assumption|]. apply is_bytes_app. auto. }
  destruct (unchecked_type (h / 16)) eqn:Eu.
  2:{ split.
      - intros H. exfalso. revert H. apply parse_no_panic_release; [exact Hall|]. intros h' t E. inv E. exact Eu.
      - intros [(E & _)|[(E & _)|[(E & _)|(E & _)]]]; [rewrite E in Eu; discriminate| |rewrite E in Eu; discriminate|rewrite E in Eu; discriminate].
        assert (E' : h / 16 = 4 \/ h / 16 = 5 \/ h / 16 = 6 \/ h / 16 = 7) by lia. destruct E' as [E'|[E'|[E'|E']]]; rewrite E' in Eu; discriminate. }
  assert (Hc : h / 16 = 2 \/ (h / 16 = 4 \/ h / 16 = 5 \/ h / 16 = 6 \/ h / 16 = 7) \/ h / 16 = 8 \/ h / 16 = 14 \/ h / 16 = 15).
  { destruct (h / 16) as [|[[[[]|[]|]|[[]|[]|]|]|[[[]|[]|]|[[]|[]|]|]|]]; cbn in Eu; try discriminate; auto 10. }
  unfold parse_with_version. destruct Hc as [E|[E|[E|[E|E]]]].
  - rewrite E. rewrite connack_panic. intuition lia.
  - assert (A : (match h / 16 with
      | 4 => lift_packet PubAck (ack_dec Release (h :: len ++ body ++ rest)) | 5 => lift_packet PubRec (ack_dec Release (h :: len ++ body ++ rest))
      | 6 => lift_packet PubRel (ack_dec Release (h :: len ++ body ++ rest)) | _ => lift_packet PubComp (ack_dec Release (h :: len ++ body ++ rest)) end = Panic)
      <-> blen body < 2 /\ blen (body ++ rest) = 2) by (destruct E as [E|[E|[E|E]]]; rewrite E; apply ack_panic).
    destruct E as [E|[E|[E|E]]]; rewrite E in *; rewrite A; intuition lia.
  - rewrite E. rewrite lift_panic, subscribe_panic. split.
    + intros (s & H). right. right. left. split; [reflexivity|]. exists s. rewrite H. reflexivity.
    + intros [(H & _)|[(H & _)|[(_ & s & H)|(H & _)]]]; try lia. exists s.
      destruct (subscribe_dec Release (h :: len ++ body ++ rest ++ [0])) as [[s' r]| |]; cbn in H; congruence.
  - rewrite E. split; [intros H; exfalso; exact (disconnect_panic H)|]. intuition lia.
  - rewrite E. rewrite auth_panic. intuition lia.
Qed.
End Frame.
