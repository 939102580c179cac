(** The parser on arbitrary bytes: what it consumes, where it can panic. *)
From Verif Require Import Base Utf8 Codec SpecCodec Property SpecProperty PacketProps Packets
  SpecPackets Tac CodecFacts PropertyFacts PacketPropsFacts.

Definition suffix (r bs : bytes) : Prop := exists pre, bs = pre ++ r.

Lemma suffix_refl bs : suffix bs bs.
Proof. exists []; reflexivity. Qed.
Lemma suffix_trans a b c : suffix a b -> suffix b c -> suffix a c.
Proof. intros (x & ->) (y & ->). exists (y ++ x). apply app_assoc. Qed.
Lemma suffix_cons x a b : suffix (x :: a) b -> suffix a b.
Proof. intros (y & ->). exists (y ++ [x]). rewrite <- app_assoc. reflexivity. Qed.
Lemma suffix_bytes r bs : suffix r bs -> is_bytes bs -> is_bytes r.
Proof. intros (x & ->) H. apply is_bytes_app in H. tauto. Qed.
Lemma suffix_bdrop n bs : suffix (bdrop n bs) bs.
Proof. exists (btake n bs). symmetry. apply btake_bdrop. Qed.

(** [x] is the outcome of a decoder on [bs]: what is left is a suffix of the input, and
    a panic happens only if [al]. *)
Definition safe {A} (al : bool) (bs : bytes) (x : res (A * bytes)) : Prop :=
  match x with
  | Ok (_, r) => suffix r bs
  | Err _ => True
  | Panic => al = true
  end.

Lemma safe_bind {A B} al bs (x : res (A * bytes)) (k : A -> bytes -> res (B * bytes)) :
  is_bytes bs -> safe al bs x ->
  (forall a r, is_bytes r -> suffix r bs -> safe al r (k a r)) ->
  safe al bs (do (a, r) <- x; k a r).
Proof.
  intros Hb Hx Hk. destruct x as [[a r]| |]; cbn [bind safe] in *; auto.
  specialize (Hk a r (suffix_bytes _ _ Hx Hb) Hx).
  destruct (k a r) as [[b r']| |]; cbn in *; auto. eapply suffix_trans; eassumption.
Qed.

Lemma safe_weak {A} al bs (x : res (A * bytes)) : safe false bs x -> safe al bs x.
Proof. destruct x as [[a r]| |]; cbn; auto. discriminate. Qed.

Lemma safe_ok {A} al bs (a : A) : safe al bs (Ok (a, bs)).
Proof. apply suffix_refl. Qed.

(** ** Primitive decoders *)

Definition is_debug (p : profile) : bool := match p with Debug => true | Release => false end.

Lemma vbi_safe p bs : is_bytes bs -> safe (is_debug p) bs (vbi_dec p bs).
Proof.
  intros Hb. destruct (vbi_dec p bs) as [[n r]|e|] eqn:E; cbn.
  - destruct (vbi_dec_ok _ _ _ _ Hb E) as (pre & -> & _). exists pre. reflexivity.
  - exact I.
  - destruct p; [reflexivity|]. exfalso. exact (vbi_dec_no_panic_release _ Hb E).
Qed.

Lemma u8_safe bs : safe false bs (u8_dec bs).
Proof. destruct bs as [|x r]; cbn; [exact I|]. exists [x]; reflexivity. Qed.
Lemma u16_safe bs : safe false bs (u16_dec bs).
Proof. destruct bs as [|x [|y r]]; cbn; try exact I. exists [x; y]; reflexivity. Qed.
Lemma u32_safe bs : safe false bs (u32_dec bs).
Proof.
  destruct bs as [|x [|y [|z [|t r]]]]; cbn; try exact I. exists [x; y; z; t]; reflexivity.
Qed.
Lemma bool_safe bs : safe false bs (bool_dec bs).
Proof. destruct bs as [|x r]; cbn; [exact I|]. exists [x]; reflexivity. Qed.
Lemma bin_safe bs : safe false bs (bin_dec bs).
Proof.
  destruct bs as [|x [|y r]]; cbn; try exact I.
  case_if; cbn; [exact I|]. eapply suffix_trans; [apply suffix_bdrop|].
  exists [x; y]; reflexivity.
Qed.
Lemma str_safe bs : safe false bs (str_dec bs).
Proof.
  destruct bs as [|x [|y r]]; cbn; try exact I.
  repeat (case_if; cbn; try exact I). eapply suffix_trans; [apply suffix_bdrop|].
  exists [x; y]; reflexivity.
Qed.
Lemma reason_safe al bs : al = true \/ bs <> [] -> safe al bs (reason_dec bs).
Proof.
  intros H. destruct bs as [|x r]; unfold reason_dec; cbn [get_u8 bind]; [cbn; tauto|].
  destruct (reason_of_code x); cbn; [|exact I]. exists [x]; reflexivity.
Qed.
Lemma get_u8_safe bs : safe true bs (get_u8 bs).
Proof. destruct bs as [|x r]; cbn; [reflexivity|]. exists [x]; reflexivity. Qed.

Lemma safe_lift_prop {A} al bs (f : A -> property) x : safe al bs x -> safe al bs (lift f x).
Proof. destruct x as [[a r]| |]; cbn; auto. Qed.
Lemma safe_lift {A} al bs (f : A -> packet) x : safe al bs x -> safe al bs (lift_packet f x).
Proof. destruct x as [[a r]| |]; cbn; auto. Qed.
Lemma safe_true {A} l (x : res (A * bytes)) al : safe al l x -> safe true l x.
Proof. destruct x as [[]| |]; cbn; auto. Qed.

Lemma prop_dec_with_id_safe p id bs :
  is_bytes bs -> safe (is_debug p) bs (prop_dec_with_id p id bs).
Proof.
  intros Hb. unfold prop_dec_with_id.
  repeat (match goal with |- safe _ _ (match ?x with _ => _ end) => destruct x end);
    try exact I; try apply safe_lift_prop;
    try (apply safe_weak; first [apply u8_safe|apply u16_safe|apply u32_safe|apply bool_safe
                                |apply str_safe|apply bin_safe]);
    try (apply vbi_safe, Hb).
  apply safe_weak, safe_bind; [exact Hb|apply str_safe|]. intros k r1 Hr1 _.
  apply safe_bind; [exact Hr1|apply str_safe|]. intros v r2 _ _. apply safe_ok.
Qed.

Lemma prop_dec_safe p bs : is_bytes bs -> safe (is_debug p) bs (prop_dec p bs).
Proof.
  intros Hb. unfold prop_dec. apply safe_bind; [exact Hb|apply vbi_safe, Hb|].
  intros id r Hr _. apply prop_dec_with_id_safe, Hr.
Qed.

(** Every property takes at least one byte. *)
Lemma prop_dec_shrinks p bs q r :
  is_bytes bs -> prop_dec p bs = Ok (q, r) -> (length r < length bs)%nat.
Proof.
  intros Hb H. unfold prop_dec in H. apply bind_ok in H. destruct H as ([id r1] & H1 & H2).
  destruct (vbi_dec_ok _ _ _ _ Hb H1) as (pre & -> & _ & Hpre & _).
  apply is_bytes_app in Hb. destruct Hb as [_ Hb].
  pose proof (prop_dec_with_id_safe p id r1 Hb) as Hs. rewrite H2 in Hs.
  destruct Hs as (pre' & ->). rewrite !app_length. unfold blen in Hpre. lia.
Qed.

Lemma props_loop_safe {A} p (step : A -> property -> option A) : forall fuel acc bs,
  is_bytes bs -> (length bs <= fuel)%nat ->
  props_loop p step fuel acc bs = Panic -> is_debug p = true.
Proof.
  induction fuel as [|fuel IH]; intros acc bs Hb Hlen; destruct bs as [|x bs]; cbn [props_loop];
    try discriminate.
  { cbn in Hlen; lia. }
  remember (x :: bs) as l eqn:El. pose proof (prop_dec_safe p l Hb) as Hs.
  destruct (prop_dec p l) as [[q r]|e|] eqn:E; cbn [bind]; [|discriminate|intros _; exact Hs].
  pose proof (prop_dec_shrinks _ _ _ _ Hb E) as Hsh.
  destruct (step acc q); [|discriminate]. apply IH; [|lia].
  cbn in Hs. eapply suffix_bytes; eassumption.
Qed.

Lemma is_bytes_btake n bs : is_bytes bs -> is_bytes (btake n bs).
Proof. intros H. rewrite <- (btake_bdrop n bs) in H. apply is_bytes_app in H. tauto. Qed.

Lemma props_dec_safe {A} p short (step : A -> property -> option A) d bs :
  is_bytes bs -> safe (is_debug p) bs (props_dec p short step d bs).
Proof.
  intros Hb. unfold props_dec. apply safe_bind; [exact Hb|apply vbi_safe, Hb|].
  intros len r Hr _. case_if; [apply safe_ok|]. case_if; [exact I|].
  destruct (props_loop p step (N.to_nat len) d (btake len r)) eqn:E; cbn [bind safe].
  - apply suffix_bdrop.
  - exact I.
  - eapply props_loop_safe; [|..|exact E].
    + apply is_bytes_btake, Hr.
    + unfold btake. rewrite firstn_length. lia.
Qed.

(** ** Decoders of packet parts *)

Lemma safe_bind_adv {B} al bs (k : bytes -> res (B * bytes)) :
  is_bytes bs -> bs <> [] ->
  (forall x r, bs = x :: r -> is_bytes r -> safe al r (k r)) -> safe al bs (do r <- advance1 bs; k r).
Proof.
  intros Hb Hne Hk. destruct bs as [|x r]; [congruence|]. cbn [advance1 bind]. inv Hb.
  specialize (Hk x r eq_refl H2). destruct (k r) as [[b r']| |]; cbn in *; auto.
  eapply suffix_trans; [exact Hk|]. exists [x]. reflexivity.
Qed.

Lemma connect_flags_safe bs : safe false bs (connect_flags_dec bs).
Proof.
  destruct bs as [|b r]; [exact I|]. unfold connect_flags_dec.
  destruct (connect_flags_of_byte b) eqn:E; cbn [bind].
  - exists [b]; reflexivity.
  - exact I.
  - unfold connect_flags_of_byte in E. repeat case_match; discriminate.
Qed.

Lemma connack_flags_safe al bs : al = true \/ bs <> [] -> safe al bs (connack_flags_dec bs).
Proof.
  intros H. destruct bs as [|x r]; [cbn; tauto|]. unfold connack_flags_dec. cbn [get_u8 bind].
  case_if; [exact I|]. exists [x]; reflexivity.
Qed.

Lemma sub_options_safe o bs : safe false bs (do o' <- sub_options_of_byte o; Ok (o', bs)).
Proof. unfold sub_options_of_byte. repeat case_match; cbn; try exact I; apply suffix_refl. Qed.

Lemma sub_filter_safe bs : is_bytes bs -> safe true bs (sub_filter_dec bs).
Proof.
  intros Hb. unfold sub_filter_dec. apply safe_bind; [exact Hb|apply safe_weak, str_safe|].
  intros s r Hr _. unfold sub_options_dec. apply safe_bind; [exact Hr| |intros; apply safe_ok].
  apply safe_bind; [exact Hr|apply get_u8_safe|]. intros o r' _ _. apply safe_weak, sub_options_safe.
Qed.

(** A loop whose body consumes at least one byte never runs out of fuel. *)
Lemma payload_loop_safe {A} al (dec : bytes -> res (A * bytes)) next :
  (forall bs, is_bytes bs -> bs <> [] -> safe al bs (dec bs) /\
     forall a r, dec bs = Ok (a, r) -> (length r < length bs)%nat) ->
  forall fuel bs, is_bytes bs -> (length bs < fuel)%nat -> safe al bs (payload_loop dec fuel next bs).
Proof.
  intros Hdec. induction fuel as [|fuel IH]; intros bs Hb Hf; [lia|].
  cbn [payload_loop]. destruct (next <? blen bs) eqn:E; [|apply safe_ok].
  assert (Hne : bs <> []) by (intros ->; unfold blen in E; cbn in E; lia).
  destruct (Hdec bs Hb Hne) as [Hs Hsh]. destruct (dec bs) as [[a r]|e|] eqn:Ed; cbn [bind]; auto.
  specialize (Hsh a r eq_refl). cbn in Hs.
  assert (Hr : is_bytes r) by (eapply suffix_bytes; eassumption).
  specialize (IH r Hr ltac:(lia)).
  destruct (payload_loop dec fuel next r) as [[l r']|e|]; cbn in *; auto.
  eapply suffix_trans; eassumption.
Qed.

Lemma usize_sub_cases p a b : usize_sub p a b = Panic -> is_debug p = true.
Proof. unfold usize_sub. repeat case_match; intros; discriminate || reflexivity. Qed.

Lemma safe_bind_sub {B} p al bs a b (k : N -> res (B * bytes)) :
  (is_debug p = true -> al = true) ->
  (forall n, usize_sub p a b = Ok n -> safe al bs (k n)) -> safe al bs (do n <- usize_sub p a b; k n).
Proof.
  intros Hal Hk. destruct (usize_sub p a b) eqn:E; cbn [bind].
  - apply Hk; reflexivity.
  - exact I.
  - cbn. apply Hal. eapply usize_sub_cases, E.
Qed.

Lemma str_dec_shrinks bs s r : str_dec bs = Ok (s, r) -> (length r < length bs)%nat.
Proof.
  destruct bs as [|x [|y r0]]; cbn [str_dec]; try discriminate. cbv zeta.
  repeat case_if; intros H; inv H. unfold bdrop. rewrite skipn_length. cbn [length]. lia.
Qed.
Lemma reason_dec_shrinks bs s r : reason_dec bs = Ok (s, r) -> (length r < length bs)%nat.
Proof.
  unfold reason_dec. destruct bs as [|x r0]; cbn [get_u8 bind]; [discriminate|].
  case_match; intros H; inv H. cbn; lia.
Qed.
Lemma suback_v3_shrinks bs s r : suback_v3_code bs = Ok (s, r) -> (length r < length bs)%nat.
Proof.
  unfold suback_v3_code. destruct bs as [|x r0]; cbn [get_u8 bind]; [discriminate|].
  intros H; inv H. cbn; lia.
Qed.
Lemma sub_filter_shrinks bs s r : sub_filter_dec bs = Ok (s, r) -> (length r < length bs)%nat.
Proof.
  intros H. unfold sub_filter_dec in H. apply bind_ok in H. destruct H as ([x r1] & H1 & H2).
  apply bind_ok in H2. destruct H2 as ([o r2] & H2 & H3). inv H3.
  apply str_dec_shrinks in H1. unfold sub_options_dec in H2.
  destruct r1 as [|b r1]; cbn [get_u8 bind] in H2; [discriminate|].
  apply bind_ok in H2. destruct H2 as (o' & _ & H2). inv H2. cbn in *. lia.
Qed.

(** ** Sizes of decoded properties: re-encoding is never longer than what was read *)

Definition small_id (q : property) : Prop :=
  match q with PSubscriptionIdentifier v => v <= vbi_max | _ => True end.
Definition psize (l : list property) : N := blen (props_enc l).

Lemma psize_app a b : psize (a ++ b) = psize a + psize b.
Proof. unfold psize, props_enc. rewrite flat_map_app, blen_app. reflexivity. Qed.
Lemma psize_cons a b : psize (a :: b) = blen (prop_enc a) + psize b.
Proof. unfold psize, props_enc. cbn [flat_map]. rewrite blen_app. reflexivity. Qed.
Lemma psize_nil : psize [] = 0.
Proof. reflexivity. Qed.

Lemma small_ids_size l : Forall small_id l -> props_size l = Ok (psize l).
Proof.
  induction 1 as [|q l Hq _ IH]; cbn [props_size]; [reflexivity|].
  unfold prop_size. rewrite vbi_size_spec by (pose proof (prop_id_small q); unfold vbi_max; lia).
  cbn [bind]. destruct (prop_val_size_spec q) as [->|(v & -> & Hv & _)]; [|cbn in Hq; lia].
  cbn [bind]. rewrite IH. cbn [bind]. rewrite psize_cons. unfold prop_enc. rewrite blen_app.
  reflexivity.
Qed.

Lemma str_dec_size bs s r : str_dec bs = Ok (s, r) -> blen (str_enc s) + blen r = blen bs.
Proof.
  destruct bs as [|x [|y r0]]; cbn [str_dec]; try discriminate. cbv zeta.
  destruct (blen r0 <? x * 256 + y) eqn:E; [discriminate|].
  case_if; [|discriminate]. intros H; inv H.
  rewrite blen_str_enc. unfold str_size. rewrite blen_btake by lia. rewrite blen_bdrop, !blen_cons. lia.
Qed.
Lemma bin_dec_size bs s r : bin_dec bs = Ok (s, r) -> blen (bin_enc s) + blen r = blen bs.
Proof.
  destruct bs as [|x [|y r0]]; cbn [bin_dec]; try discriminate. cbv zeta.
  destruct (blen r0 <? x * 256 + y) eqn:E; [discriminate|]. intros H; inv H.
  rewrite blen_bin_enc. unfold bin_size. rewrite blen_btake by lia. rewrite blen_bdrop, !blen_cons. lia.
Qed.

Lemma prop_dec_with_id_size p id bs q r :
  is_bytes bs -> prop_dec_with_id p id bs = Ok (q, r) ->
  small_id q /\ (prop_id q = id \/ (id = 25 /\ prop_id q = 23)) /\
  blen (prop_val_enc q) + blen r <= blen bs.
Proof.
  intros Hb H.
  assert (Hu8 : forall f, (forall v, small_id (f v)) -> (forall v, prop_id (f v) = id \/ (id = 25 /\ prop_id (f v) = 23)) ->
            (forall v, prop_val_enc (f v) = u8_enc v) ->
            lift f (u8_dec bs) = Ok (q, r) ->
            small_id q /\ (prop_id q = id \/ (id = 25 /\ prop_id q = 23)) /\
            blen (prop_val_enc q) + blen r <= blen bs).
  { intros f H1 H2 H3 E. destruct bs as [|x r0]; cbn in E; inv E. rewrite H3. repeat split; auto.
    unfold u8_enc. rewrite !blen_cons, blen_nil. lia. }
  assert (Hbo : forall f, (forall v, small_id (f v)) -> (forall v, prop_id (f v) = id) ->
            (forall v, prop_val_enc (f v) = bool_enc v) ->
            lift f (bool_dec bs) = Ok (q, r) ->
            small_id q /\ (prop_id q = id \/ (id = 25 /\ prop_id q = 23)) /\
            blen (prop_val_enc q) + blen r <= blen bs).
  { intros f H1 H2 H3 E. destruct bs as [|x r0]; cbn in E; inv E. rewrite H3. repeat split; auto.
    unfold bool_enc. rewrite !blen_cons, blen_nil. lia. }
  assert (Hu16 : forall f, (forall v, small_id (f v)) -> (forall v, prop_id (f v) = id) ->
            (forall v, prop_val_enc (f v) = u16_enc v) ->
            lift f (u16_dec bs) = Ok (q, r) ->
            small_id q /\ (prop_id q = id \/ (id = 25 /\ prop_id q = 23)) /\
            blen (prop_val_enc q) + blen r <= blen bs).
  { intros f H1 H2 H3 E. destruct bs as [|x [|y r0]]; cbn in E; inv E. rewrite H3. repeat split; auto.
    unfold u16_enc. rewrite !blen_cons, blen_nil. lia. }
  assert (Hu32 : forall f, (forall v, small_id (f v)) -> (forall v, prop_id (f v) = id) ->
            (forall v, prop_val_enc (f v) = u32_enc v) ->
            lift f (u32_dec bs) = Ok (q, r) ->
            small_id q /\ (prop_id q = id \/ (id = 25 /\ prop_id q = 23)) /\
            blen (prop_val_enc q) + blen r <= blen bs).
  { intros f H1 H2 H3 E. destruct bs as [|x [|y [|z [|t r0]]]]; cbn in E; inv E. rewrite H3. repeat split; auto.
    unfold u32_enc. rewrite !blen_cons, blen_nil. lia. }
  assert (Hs : forall f, (forall v, small_id (f v)) -> (forall v, prop_id (f v) = id) ->
            (forall v, prop_val_enc (f v) = str_enc v) ->
            lift f (str_dec bs) = Ok (q, r) ->
            small_id q /\ (prop_id q = id \/ (id = 25 /\ prop_id q = 23)) /\
            blen (prop_val_enc q) + blen r <= blen bs).
  { intros f H1 H2 H3 E. unfold lift in E. apply bind_ok in E. destruct E as ([s r1] & E1 & E2).
    inv E2. rewrite H3. repeat split; auto. apply str_dec_size in E1. lia. }
  assert (Hbi : forall f, (forall v, small_id (f v)) -> (forall v, prop_id (f v) = id) ->
            (forall v, prop_val_enc (f v) = bin_enc v) ->
            lift f (bin_dec bs) = Ok (q, r) ->
            small_id q /\ (prop_id q = id \/ (id = 25 /\ prop_id q = 23)) /\
            blen (prop_val_enc q) + blen r <= blen bs).
  { intros f H1 H2 H3 E. unfold lift in E. apply bind_ok in E. destruct E as ([s r1] & E1 & E2).
    inv E2. rewrite H3. repeat split; auto. apply bin_dec_size in E1. lia. }
  unfold prop_dec_with_id in H.
  repeat (match type of H with (match ?x with _ => _ end) = _ => is_var x; destruct x end);
    try discriminate;
    try (revert H; (first [apply Hu8|apply Hu16|apply Hu32|apply Hbo|apply Hs|apply Hbi]);
         intros; (exact I || reflexivity || (left; reflexivity) || (right; split; reflexivity))).
  - unfold lift in H. apply bind_ok in H. destruct H as ([v r1] & E1 & H). inv H.
    destruct (vbi_dec_ok _ _ _ _ Hb E1) as (pre & -> & Hd & Hl & Hm).
    repeat split; [exact Hm|left; reflexivity|]. cbn [prop_val_enc]. rewrite blen_app.
    pose proof (vbi_enc_minimal _ _ Hm Hd). lia.
  - apply bind_ok in H. destruct H as ([k r1] & E1 & H). apply bind_ok in H.
    destruct H as ([v r2] & E2 & H). inv H. apply str_dec_size in E1, E2.
    repeat split; [left; reflexivity|]. cbn [prop_val_enc]. rewrite blen_app. lia.
Qed.

Lemma prop_dec_size p bs q r :
  is_bytes bs -> prop_dec p bs = Ok (q, r) ->
  small_id q /\ blen (prop_enc q) + blen r <= blen bs.
Proof.
  intros Hb H. unfold prop_dec in H. apply bind_ok in H. destruct H as ([id r1] & H1 & H2).
  destruct (vbi_dec_ok _ _ _ _ Hb H1) as (pre & -> & Hd & Hpre & Hm).
  apply is_bytes_app in Hb. destruct Hb as [_ Hb].
  destruct (prop_dec_with_id_size _ _ _ _ _ Hb H2) as (Hs & Hid & Hsz). split; [exact Hs|].
  unfold prop_enc. rewrite !blen_app.
  assert (blen (vbi_enc (prop_id q)) <= blen pre).
  { destruct Hid as [->|[_ ->]]; [apply vbi_enc_minimal; assumption|].
    change (blen (vbi_enc 23)) with 1. lia. }
  lia.
Qed.

(** [step] never makes the structure larger than the property it stores. *)
Definition step_bounded {A} (step : A -> property -> option A) (lst : A -> list property) : Prop :=
  forall a q a', step a q = Some a' -> small_id q -> Forall small_id (lst a) ->
    Forall small_id (lst a') /\ psize (lst a') <= psize (lst a) + blen (prop_enc q).

Lemma props_loop_size {A} p step (lst : A -> list property) : step_bounded step lst ->
  forall fuel acc bs a, is_bytes bs -> Forall small_id (lst acc) ->
  props_loop p step fuel acc bs = Ok a ->
  Forall small_id (lst a) /\ psize (lst a) <= psize (lst acc) + blen bs.
Proof.
  intros Hst. induction fuel as [|fuel IH]; intros acc bs a Hb Hs; destruct bs as [|x bs];
    cbn [props_loop]; try discriminate.
  { intros H; inv H. split; [exact Hs|lia]. }
  { intros H; inv H. split; [exact Hs|lia]. }
  remember (x :: bs) as l eqn:El. intros H. apply bind_ok in H. destruct H as ([q r] & E & H).
  destruct (prop_dec_size _ _ _ _ Hb E) as [Hq Hsz].
  destruct (step acc q) as [acc'|] eqn:Es; [|discriminate].
  destruct (Hst _ _ _ Es Hq Hs) as [Hs' Hsz'].
  pose proof (prop_dec_safe p l Hb) as Hsf. rewrite E in Hsf.
  destruct (IH acc' r a (suffix_bytes _ _ Hsf Hb) Hs' H) as [H1 H2].
  split; [exact H1|]. lia.
Qed.

Lemma props_dec_size {A} p short step (d : A) (lst : A -> list property) bs a r :
  step_bounded step lst -> lst d = [] -> is_bytes bs ->
  props_dec p short step d bs = Ok (a, r) ->
  exists len body, bs = len ++ body ++ r /\ vbi_denotes len (blen body) /\ 1 <= blen len <= 4 /\
    Forall small_id (lst a) /\ psize (lst a) <= blen body.
Proof.
  intros Hst Hd Hb H. unfold props_dec in H. apply bind_ok in H. destruct H as ([n r1] & H1 & H2).
  destruct (vbi_dec_ok _ _ _ _ Hb H1) as (len & -> & Hden & Hl & Hm).
  apply is_bytes_app in Hb. destruct Hb as [_ Hb].
  destruct (n =? 0) eqn:E0.
  { inv H2. exists len, []. rewrite Hd. cbn [app]. replace n with (blen (@nil N)) in Hden by (rewrite blen_nil; lia).
    split; [reflexivity|]. split; [exact Hden|]. split; [exact Hl|]. split; [constructor|]. rewrite psize_nil. lia. }
  destruct (blen r1 <? n) eqn:E1; [discriminate|].
  apply bind_ok in H2. destruct H2 as (a' & H2 & H3). inv H3.
  exists len, (btake n r1). rewrite btake_bdrop. rewrite blen_btake by lia.
  split; [reflexivity|]. split; [exact Hden|]. split; [exact Hl|].
  destruct (props_loop_size p step lst Hst _ _ _ _ (is_bytes_btake n _ Hb)
              (ltac:(rewrite Hd; constructor)) H2) as [H3 H4].
  split; [exact H3|]. rewrite Hd, psize_nil, blen_btake in H4 by lia. lia.
Qed.

Lemma psize_olist_some {A} (f : A -> property) a : psize (olist f (Some a)) = blen (prop_enc (f a)).
Proof. unfold olist. rewrite psize_cons, psize_nil. lia. Qed.
Lemma psize_ulist_push o k v :
  psize (ulist (push_user o k v)) = psize (ulist o) + blen (prop_enc (PUserProperty k v)).
Proof.
  destruct o as [l|]; cbn [push_user ulist].
  - rewrite map_app, psize_app. cbn [map]. rewrite psize_cons, psize_nil. cbn [fst snd]. lia.
  - cbn [map]. rewrite psize_cons, psize_nil. cbn [fst snd]. lia.
Qed.
Lemma small_olist {A} (f : A -> property) o : (forall a, o = Some a -> small_id (f a)) -> Forall small_id (olist f o).
Proof. destruct o; cbn; constructor; auto. Qed.
Lemma small_ulist o : Forall small_id (ulist o).
Proof. destruct o as [l|]; cbn; [|constructor]. induction l; cbn; constructor; auto. exact I. Qed.

Ltac step_bounded_tac step lst :=
  intros a q a' Hs Hq Ha; unfold step in Hs; destruct q; inv Hs; unfold lst in *;
  match goal with |- context [psize] => idtac end;
  repeat rewrite Forall_app in *;
  (split;
  [ repeat match goal with H : _ /\ _ |- _ => destruct H end;
    repeat split; try assumption; try apply small_ulist;
    try (apply small_olist; intros ? E; inv E; exact Hq)
  | rewrite ?psize_app; cbn -[psize olist ulist push_user prop_enc blen N.le N.add]; rewrite ?psize_olist_some, ?psize_ulist_push; lia ]).

Lemma publish_step_bounded : step_bounded publish_props_step publish_props_list.
Proof. step_bounded_tac publish_props_step publish_props_list. Qed.
Lemma auth_step_bounded : step_bounded auth_props_step auth_props_list.
Proof. step_bounded_tac auth_props_step auth_props_list. Qed.
Lemma disconnect_step_bounded : step_bounded disconnect_props_step disconnect_props_list.
Proof. step_bounded_tac disconnect_props_step disconnect_props_list. Qed.

(** ** Decoders of packets *)

Section Packets.
Variable p : profile.
Variable bs : bytes.
Hypothesis Hb : is_bytes bs.
Hypothesis Hne : bs <> [].

Lemma connect_safe : safe (is_debug p) bs (connect_dec p bs).
Proof using Hb Hne.
  unfold connect_dec. apply safe_bind_adv; [assumption..|]. intros _ r _ Hr.
  apply safe_bind; [exact Hr|apply vbi_safe, Hr|]. intros _ r1 Hr1 _.
  apply safe_bind; [exact Hr1|apply safe_weak, str_safe|]. intros name r2 Hr2 _.
  apply safe_bind; [exact Hr2|apply safe_weak, u8_safe|]. intros level r3 Hr3 _.
  destruct (from_name_and_level name level) as [v|]; [|exact I].
  apply safe_bind; [exact Hr3|apply safe_weak, connect_flags_safe|]. intros flags r4 Hr4 _.
  apply safe_bind; [exact Hr4|apply safe_weak, u16_safe|]. intros ka r5 Hr5 _.
  apply safe_bind; [exact Hr5| |].
  { destruct (supports_properties v); [|apply safe_ok].
    apply safe_bind; [exact Hr5|apply props_dec_safe, Hr5|]. intros; apply safe_ok. }
  intros props r6 Hr6 _. apply safe_bind; [exact Hr6| |intros; apply safe_ok].
  unfold connect_payload_dec.
  apply safe_bind; [exact Hr6|apply safe_weak, str_safe|]. intros cid r7 Hr7 _.
  apply safe_bind; [exact Hr7| |].
  { destruct (cf_will_flag flags); [|apply safe_ok].
    apply safe_bind; [exact Hr7| |].
    { destruct (supports_properties v); [|apply safe_ok].
      apply safe_bind; [exact Hr7|apply props_dec_safe, Hr7|]. intros; apply safe_ok. }
    intros wp r8 Hr8 _. apply safe_bind; [exact Hr8|apply safe_weak, str_safe|]. intros wt r9 Hr9 _.
    apply safe_bind; [exact Hr9|apply safe_weak, bin_safe|]. intros; apply safe_ok. }
  intros will r10 Hr10 _.
  apply safe_bind; [exact Hr10| |].
  { destruct (cf_user_name flags); [|apply safe_ok].
    apply safe_bind; [exact Hr10|apply safe_weak, str_safe|intros; apply safe_ok]. }
  intros un r11 Hr11 _.
  apply safe_bind; [exact Hr11| |].
  { destruct (cf_password flags); [|apply safe_ok].
    apply safe_bind; [exact Hr11|apply safe_weak, bin_safe|intros; apply safe_ok]. }
  intros pw r12 _ _. destruct will as [[wp wt] wd]. apply safe_ok.
Qed.

Lemma connack_suffix : safe true bs (connack_dec p bs).
Proof using Hb Hne.
  unfold connack_dec. apply safe_bind_adv; [assumption..|]. intros _ r _ Hr.
  apply safe_bind; [exact Hr|eapply safe_true, vbi_safe, Hr|]. intros _ r1 Hr1 _.
  apply safe_bind; [exact Hr1|apply connack_flags_safe; auto|]. intros sp r2 Hr2 _.
  apply safe_bind; [exact Hr2|apply reason_safe; auto|]. intros rc r3 Hr3 _.
  apply safe_bind; [exact Hr3|eapply safe_true, props_dec_safe, Hr3|intros; apply safe_ok].
Qed.

Lemma connack_v3_suffix : safe true bs (connack_dec_v3 p bs).
Proof using Hb Hne.
  unfold connack_dec_v3. apply safe_bind_adv; [assumption..|]. intros _ r _ Hr.
  apply safe_bind; [exact Hr|eapply safe_true, vbi_safe, Hr|]. intros _ r1 Hr1 _.
  apply safe_bind; [exact Hr1|apply connack_flags_safe; auto|]. intros sp r2 Hr2 _.
  apply safe_bind; [exact Hr2|apply get_u8_safe|]. intros rc r3 Hr3 _. apply safe_ok.
Qed.

Lemma publish_safe : safe (is_debug p) bs (publish_dec p bs).
Proof using Hb Hne.
  unfold publish_dec. destruct bs as [|h r0]; [congruence|]. inv Hb.
  cbn [get_u8 bind]. cut (forall q d t, safe (is_debug p) r0
    (do (remaining_len, r) <- vbi_dec p r0;
     do (topic, r) <- str_dec r;
     do (pid, r) <-
       (match q with
        | AtMostOnce => Ok (None, r)
        | QInvalid => Err (EReason MalformedPacket)
        | _ => do (i, r) <- u16_dec r; Ok (Some i, r)
        end);
     do (a, r) <- props_dec p PacketIncomplete publish_props_step publish_props_default r;
     do psz <- props_size (publish_props_size_list a);
     do vsz <- vsize psz;
     do payload_len <- usize_sub p remaining_len (str_size topic + pid_size pid + psz + vsz);
     if blen r <? payload_len then Err (EReason MalformedPacket)
     else
       Ok (Mk_publish_packet d q t topic pid (Some a) (Some (btake payload_len r)),
           bdrop payload_len r))).
  { intros Hc. specialize (Hc (qos_from (N.land h 6 / 2)) (negb (N.land h 8 =? 0)) (negb (N.land h 1 =? 0))).
    match goal with |- safe _ _ ?x => destruct x as [[b r]| |]; auto end.
    cbn in Hc |- *. eapply suffix_trans; [exact Hc|]. exists [h]. reflexivity. }
  intros q dd tt. apply safe_bind; [assumption|apply vbi_safe; assumption|]. intros rl r Hr _.
  apply safe_bind; [exact Hr|apply safe_weak, str_safe|]. intros topic r1 Hr1 _.
  apply safe_bind; [exact Hr1| |].
  { destruct q; try exact I; try apply safe_ok;
      (apply safe_bind; [exact Hr1|apply safe_weak, u16_safe|intros; apply safe_ok]). }
  intros pid r2 Hr2 _.
  pose proof (props_dec_safe p PacketIncomplete publish_props_step publish_props_default r2 Hr2) as Hps.
  destruct (props_dec p PacketIncomplete publish_props_step publish_props_default r2)
    as [[a r3]|e|] eqn:Ep; cbn [bind]; auto.
  destruct (props_dec_size p PacketIncomplete _ publish_props_default publish_props_list _ _ _ publish_step_bounded eq_refl Hr2 Ep)
    as (len & body & -> & Hden & Hlen & Hsm & Hsz).
  change (publish_props_size_list a) with (publish_props_list a).
  rewrite small_ids_size by exact Hsm. cbn [bind].
  assert (Hv : exists vsz, vsize (psize (publish_props_list a)) = Ok vsz).
  { unfold vsize. eexists. apply vbi_size_spec. pose proof (vbi_denotes_bound _ _ Hden).
    assert (128 ^ blen len <= 128 ^ 4) by (apply N.pow_le_mono_r; lia).
    change (128 ^ 4) with 268435456 in *. unfold as_u32, two32, vbi_max. lia. }
  destruct Hv as [vsz ->]. cbn [bind].
  apply safe_bind_sub with (p := p); [auto|]. intros n _. case_if; [exact I|].
  cbn in Hps |- *. eapply suffix_trans; [apply suffix_bdrop|].
  exists (len ++ body). apply app_assoc.
Qed.

Lemma ack_suffix : safe true bs (ack_dec p bs).
Proof using Hb Hne.
  unfold ack_dec. apply safe_bind_adv; [assumption..|]. intros _ r _ Hr.
  apply safe_bind; [exact Hr|eapply safe_true, vbi_safe, Hr|]. intros rl r1 Hr1 _.
  apply safe_bind; [exact Hr1|apply safe_weak, u16_safe|]. intros pid r2 Hr2 _.
  case_if; [apply safe_ok|].
  apply safe_bind; [exact Hr2|apply reason_safe; auto|]. intros rc r3 Hr3 _.
  apply safe_bind; [exact Hr3|eapply safe_true, props_dec_safe, Hr3|intros; apply safe_ok].
Qed.

Lemma subscribe_suffix : safe true bs (subscribe_dec p bs).
Proof using Hb Hne.
  unfold subscribe_dec. apply safe_bind_adv; [assumption..|]. intros _ r _ Hr.
  apply safe_bind; [exact Hr|eapply safe_true, vbi_safe, Hr|]. intros rl r1 Hr1 _. cbv zeta.
  apply safe_bind; [exact Hr1|apply safe_weak, u16_safe|]. intros pid r2 Hr2 _.
  apply safe_bind; [exact Hr2|eapply safe_true, props_dec_safe, Hr2|]. intros a r3 Hr3 _.
  case_if; [exact I|]. apply (safe_bind_sub p); [auto|]. intros n _.
  apply safe_bind; [exact Hr3| |intros; apply safe_ok].
  apply payload_loop_safe; [|exact Hr3|lia]. intros l Hl _. split; [apply sub_filter_safe, Hl|].
  intros f r'. apply sub_filter_shrinks.
Qed.

Lemma suback_safe : safe (is_debug p) bs (suback_dec p bs).
Proof using Hb Hne.
  unfold suback_dec. apply safe_bind_adv; [assumption..|]. intros _ r _ Hr.
  apply safe_bind; [exact Hr|apply vbi_safe, Hr|]. intros rl r1 Hr1 _. cbv zeta.
  apply safe_bind; [exact Hr1|apply safe_weak, u16_safe|]. intros pid r2 Hr2 _.
  apply safe_bind; [exact Hr2|apply props_dec_safe, Hr2|]. intros a r3 Hr3 _.
  case_if; [exact I|]. apply (safe_bind_sub p); [auto|]. intros n _.
  apply safe_bind; [exact Hr3| |intros; apply safe_ok].
  apply payload_loop_safe; [|exact Hr3|lia]. intros l Hl Hnl. split; [apply reason_safe; auto|].
  intros f r'. apply reason_dec_shrinks.
Qed.

Lemma suback_v3_safe : safe (is_debug p) bs (suback_dec_v3 p bs).
Proof using Hb Hne.
  unfold suback_dec_v3. apply safe_bind_adv; [assumption..|]. intros _ r _ Hr.
  apply safe_bind; [exact Hr|apply vbi_safe, Hr|]. intros rl r1 Hr1 _. cbv zeta.
  apply safe_bind; [exact Hr1|apply safe_weak, u16_safe|]. intros pid r2 Hr2 _.
  apply (safe_bind_sub p); [auto|]. intros n _.
  apply safe_bind; [exact Hr2| |intros; apply safe_ok].
  apply payload_loop_safe; [|exact Hr2|lia]. intros l Hl Hnl. split.
  - destruct l as [|x l]; [congruence|]. exists [x]. reflexivity.
  - intros f r'. apply suback_v3_shrinks.
Qed.

Lemma unsubscribe_safe : safe (is_debug p) bs (unsubscribe_dec p bs).
Proof using Hb Hne.
  unfold unsubscribe_dec. apply safe_bind_adv; [assumption..|]. intros _ r _ Hr.
  apply safe_bind; [exact Hr|apply vbi_safe, Hr|]. intros rl r1 Hr1 _. cbv zeta.
  apply safe_bind; [exact Hr1|apply safe_weak, u16_safe|]. intros pid r2 Hr2 _.
  apply safe_bind; [exact Hr2|apply props_dec_safe, Hr2|]. intros a r3 Hr3 _.
  case_if; [exact I|]. apply (safe_bind_sub p); [auto|]. intros n _.
  apply safe_bind; [exact Hr3| |intros; apply safe_ok].
  apply payload_loop_safe; [|exact Hr3|lia]. intros l Hl Hnl. split; [apply safe_weak, str_safe|].
  intros f r'. apply str_dec_shrinks.
Qed.

Lemma unsuback_safe : safe (is_debug p) bs (unsuback_dec p bs).
Proof using Hb Hne.
  unfold unsuback_dec. apply safe_bind_adv; [assumption..|]. intros _ r _ Hr.
  apply safe_bind; [exact Hr|apply vbi_safe, Hr|]. intros rl r1 Hr1 _. cbv zeta.
  apply safe_bind; [exact Hr1|apply safe_weak, u16_safe|]. intros pid r2 Hr2 _.
  apply safe_bind; [exact Hr2|apply props_dec_safe, Hr2|]. intros a r3 Hr3 _.
  case_if; [exact I|]. apply (safe_bind_sub p); [auto|]. intros n _.
  apply safe_bind; [exact Hr3| |intros; apply safe_ok].
  apply payload_loop_safe; [|exact Hr3|lia]. intros l Hl Hnl. split; [apply reason_safe; auto|].
  intros f r'. apply reason_dec_shrinks.
Qed.

Lemma unsuback_v3_safe : safe (is_debug p) bs (unsuback_dec_v3 p bs).
Proof using Hb Hne.
  unfold unsuback_dec_v3. apply safe_bind_adv; [assumption..|]. intros _ r _ Hr.
  apply safe_bind; [exact Hr|apply vbi_safe, Hr|]. intros rl r1 Hr1 _.
  apply safe_bind; [exact Hr1|apply safe_weak, u16_safe|]. intros pid r2 Hr2 _. apply safe_ok.
Qed.

Lemma ping_safe : safe false bs (ping_dec bs).
Proof using Hb Hne.
  unfold ping_dec. apply safe_bind_adv; [assumption..|]. intros _ r _ Hr. apply safe_ok.
Qed.

Lemma disconnect_suffix : safe true bs (disconnect_dec p bs).
Proof using Hb Hne.
  unfold disconnect_dec. apply safe_bind; [assumption|apply get_u8_safe|]. intros h r Hr _.
  case_if; [exact I|].
  apply safe_bind; [exact Hr|eapply safe_true, vbi_safe, Hr|]. intros rl r1 Hr1 _.
  apply safe_bind; [exact Hr1| |].
  { case_if; [apply safe_ok|apply reason_safe; auto]. }
  intros rc r2 Hr2 _. apply safe_bind; [exact Hr2| |intros; apply safe_ok].
  case_if; [apply safe_ok|].
  apply safe_bind; [exact Hr2|eapply safe_true, props_dec_safe, Hr2|intros; apply safe_ok].
Qed.

Lemma auth_suffix : safe true bs (auth_dec p bs).
Proof using Hb Hne.
  unfold auth_dec. apply safe_bind; [assumption|apply get_u8_safe|]. intros h r Hr _.
  case_if; [exact I|].
  apply safe_bind; [exact Hr|eapply safe_true, vbi_safe, Hr|]. intros rl r1 Hr1 _.
  apply safe_bind; [exact Hr1|apply reason_safe; auto|]. intros rc r2 Hr2 _.
  apply safe_bind; [exact Hr2|eapply safe_true, props_dec_safe, Hr2|intros; apply safe_ok].
Qed.

End Packets.

(** The packet types whose decoders read an unchecked byte. *)
Definition unchecked_type (t : N) : bool :=
  match t with 2 | 4 | 5 | 6 | 7 | 8 | 14 | 15 => true | _ => false end.

Lemma parse_safe p v h bs :
  is_bytes (h :: bs) ->
  safe (is_debug p || unchecked_type (h / 16)) (h :: bs) (parse_with_version p v (h :: bs)).
Proof.
  intros Hb. assert (Hne : h :: bs <> []) by discriminate. unfold parse_with_version.
  assert (Hd : forall A (x : res (A * bytes)), safe (is_debug p) (h :: bs) x ->
            safe (is_debug p || unchecked_type (h / 16)) (h :: bs) x).
  { intros A x. destruct x as [[]| |]; cbn; auto. intros ->. reflexivity. }
  assert (Ht : forall A (x : res (A * bytes)), unchecked_type (h / 16) = true -> safe true (h :: bs) x ->
            safe (is_debug p || unchecked_type (h / 16)) (h :: bs) x).
  { intros A x -> H. rewrite orb_true_r. exact H. }
  destruct (h / 16) as [|t] eqn:E; [exact I|].
  repeat (match goal with |- safe _ _ (match ?x with _ => _ end) => is_var x; destruct x end);
    try exact I; apply safe_lift;
    first
    [ apply Ht; [reflexivity|];
      first [apply ack_suffix|apply subscribe_suffix|apply disconnect_suffix|apply auth_suffix
            |destruct (supports_properties v); [apply connack_suffix|apply connack_v3_suffix]];
      assumption
    | apply Hd;
      first [apply connect_safe|apply publish_safe|apply unsubscribe_safe
            |apply safe_weak, ping_safe
            |destruct (supports_properties v); [apply suback_safe|apply suback_v3_safe]
            |destruct (supports_properties v); [apply unsuback_safe|apply unsuback_v3_safe]];
      assumption ].
Qed.

(** ** Consumption *)

Lemma parse_consumes p v bs k r :
  is_bytes bs -> parse_with_version p v bs = Ok (k, r) -> exists pre, bs = pre ++ r.
Proof.
  intros Hb H. destruct bs as [|h bs]; [discriminate|].
  pose proof (parse_safe p v h bs Hb) as Hs. rewrite H in Hs. exact Hs.
Qed.

Lemma parse_no_panic_release v bs :
  is_bytes bs -> (forall h t, bs = h :: t -> unchecked_type (h / 16) = false) ->
  parse_with_version Release v bs <> Panic.
Proof.
  intros Hb Ht H. destruct bs as [|h bs]; [discriminate|].
  pose proof (parse_safe Release v h bs Hb) as Hs. rewrite H in Hs. cbn in Hs.
  rewrite (Ht h bs eq_refl) in Hs. discriminate.
Qed.
