(** Everything that the parser accepts is laid out as [lenient] of SpecWire says. *)
From Verif Require Import Base Utf8 Codec SpecCodec Property SpecProperty PacketProps Packets SpecPackets
  Tac CodecFacts PropertyFacts PacketPropsFacts PacketsFacts PacketsRoundtrip ParseFacts WireFacts SpecWire WireConform.

Definition gets {A} (dec : bytes -> res (A * bytes)) (field : bytes -> A -> Prop) : Prop :=
  forall bs a r, is_bytes bs -> dec bs = Ok (a, r) -> exists x, bs = x ++ r /\ is_bytes r /\ field x a.

(** ** Fields *)

Lemma u8_gets : gets u8_dec int1.
Proof. intros [|b bs] a r Hb H; inv H. inv Hb. exists [a]. repeat split; assumption. Qed.
Lemma u16_gets : gets u16_dec int2.
Proof.
  intros [|a [|b bs]] n r Hb H; try discriminate. cbn in H. inv H. inv Hb. inv H2.
  exists [a; b]. split; [reflexivity|]. split; [assumption|]. exists a, b. repeat split; assumption.
Qed.
Lemma u32_gets : gets u32_dec int4.
Proof.
  intros [|a [|b [|c [|d bs]]]] n r Hb H; try discriminate. cbn in H. inv H. inv Hb. inv H2. inv H4. inv H5.
  exists [a; b; c; d]. split; [reflexivity|]. split; [assumption|]. exists a, b, c, d. repeat split; assumption.
Qed.
Lemma bool_gets : gets bool_dec lax_flag.
Proof.
  intros [|b bs] a r Hb H; inv H. inv Hb. exists [b]. split; [reflexivity|]. split; [assumption|].
  exists b. split; [reflexivity|]. split; [assumption|]. destruct (b =? 0) eqn:E; cbn; split; intros; try lia; discriminate.
Qed.
Lemma vbi_gets p : gets (vbi_dec p) lax_int.
Proof.
  intros bs n r Hb H. destruct (vbi_dec_ok _ _ _ _ Hb H) as (x & -> & Hd & Hl & _). apply is_bytes_app in Hb.
  exists x. split; [reflexivity|]. split; [apply Hb|]. split; [exact Hd|apply Hl].
Qed.
Lemma str_gets : gets str_dec string_field.
Proof.
  intros bs s r Hb H. pose proof (str_dec_len _ _ _ Hb H) as Hl. apply str_dec_char in H.
  destruct H as (a & b & -> & Hs & Hu). exists ([a; b] ++ s). split; [reflexivity|].
  inv Hb. inv H2. apply is_bytes_app in H4. split; [apply H4|]. exists [a; b]. split; [reflexivity|]. split; [|exact Hu].
  exists a, b. repeat split; auto.
Qed.
Lemma bin_gets : gets bin_dec data_field.
Proof.
  intros [|a [|b bs]] d r Hb H; try discriminate. cbn in H. case_if; [discriminate|]. inv H. inv Hb. inv H2.
  rename H4 into Hb. rewrite <- (btake_bdrop (a * 256 + b) bs) in Hb. apply is_bytes_app in Hb.
  exists ([a; b] ++ btake (a * 256 + b) bs). split; [cbn; rewrite btake_bdrop; reflexivity|]. split; [apply Hb|].
  exists [a; b]. split; [reflexivity|]. split; [|apply Hb]. exists a, b. rewrite blen_btake by lia. repeat split; assumption.
Qed.
Lemma reason_gets : gets reason_dec (fun x r => x = [code r]).
Proof.
  intros [|b bs] c r Hb H; [discriminate|]. cbn in H. destruct (reason_of_code b) as [x|] eqn:E; [|discriminate]. inv H. inv Hb.
  exists [b]. split; [reflexivity|]. split; [assumption|]. rewrite code_eq, (reason_code_sound b c); auto.
Qed.

(** ** Properties *)

Lemma lift_gets {A} (dec : bytes -> res (A * bytes)) field (P : A -> property) bs q r :
  gets dec field -> is_bytes bs -> lift P (dec bs) = Ok (q, r) -> exists x a, bs = x ++ r /\ is_bytes r /\ q = P a /\ field x a.
Proof.
  intros Hg Hb H. unfold lift in H. apply bind_ok in H. destruct H as ([a r'] & H1 & H2). inv H2.
  destruct (Hg _ _ _ Hb H1) as (x & -> & Hr & Hf). exists x, a. auto.
Qed.

Lemma value_gets p id bs q r : is_bytes bs -> prop_dec_with_id p id bs = Ok (q, r) ->
  exists x, bs = x ++ r /\ is_bytes r /\ lax_value q x /\ lax_identifier q id.
Proof.
  intros Hb H.
  assert (Hid : id = 0 \/ id = 1 \/ id = 2 \/ id = 3 \/ id = 4 \/ id = 5 \/ id = 6 \/ id = 7 \/ id = 8 \/ id = 9 \/ id = 10 \/
    id = 11 \/ id = 12 \/ id = 13 \/ id = 14 \/ id = 15 \/ id = 16 \/ id = 17 \/ id = 18 \/ id = 19 \/ id = 20 \/ id = 21 \/ id = 22 \/
    id = 23 \/ id = 24 \/ id = 25 \/ id = 26 \/ id = 27 \/ id = 28 \/ id = 29 \/ id = 30 \/ id = 31 \/ id = 32 \/ id = 33 \/ id = 34 \/
    id = 35 \/ id = 36 \/ id = 37 \/ id = 38 \/ id = 39 \/ id = 40 \/ id = 41 \/ id = 42 \/ 42 < id) by lia.
  repeat (destruct Hid as [->|Hid]; [
    cbv beta iota delta [prop_dec_with_id] in H; try discriminate H;
    first [ apply (lift_gets _ _ _ _ _ _ u8_gets Hb) in H | apply (lift_gets _ _ _ _ _ _ u16_gets Hb) in H
          | apply (lift_gets _ _ _ _ _ _ u32_gets Hb) in H | apply (lift_gets _ _ _ _ _ _ str_gets Hb) in H
          | apply (lift_gets _ _ _ _ _ _ bin_gets Hb) in H | apply (lift_gets _ _ _ _ _ _ bool_gets Hb) in H
          | apply (lift_gets _ _ _ _ _ _ (vbi_gets p) Hb) in H
          | apply bind_ok in H; destruct H as ([k r1] & H1 & H); apply bind_ok in H; destruct H as ([v r2] & H2 & H); inv H;
            destruct (str_gets _ _ _ Hb H1) as (x1 & -> & Hr1 & Hf1); destruct (str_gets _ _ _ Hr1 H2) as (x2 & -> & Hr2 & Hf2);
            exists (x1 ++ x2); rewrite app_assoc; split; [reflexivity|]; split; [exact Hr2|]; split; [|reflexivity];
            exists x1, x2; auto ];
    try (destruct H as (x & a & -> & Hr & -> & Hf); exists x; split; [reflexivity|]; split; [exact Hr|]; split; [exact Hf|];
         cbn; auto) |]).
  exfalso. destruct id as [|n]; [lia|].
  do 6 (destruct n as [n|n|]; try discriminate H; try lia).
Qed.

Lemma loop_gets {A} p (step : A -> property -> option A) fuel : forall acc bs a,
  is_bytes bs -> props_loop p step fuel acc bs = Ok a ->
  exists l, lax_properties l bs /\ Forall not_rri l /\ foldo step acc l = Some a.
Proof.
  induction fuel as [|fuel IH]; intros acc bs a Hb H; destruct bs as [|b bs]; cbn [props_loop] in H; try discriminate.
  - inv H. exists []. repeat split; constructor.
  - inv H. exists []. repeat split; constructor.
  - apply bind_ok in H. destruct H as ([q r] & H1 & H). unfold prop_dec in H1. apply bind_ok in H1. destruct H1 as ([id r1] & Hi & Hv).
    destruct (vbi_gets p _ _ _ Hb Hi) as (i & E & Hr1 & Hf). destruct (value_gets _ _ _ _ _ Hr1 Hv) as (v & -> & Hr & Hval & Hid).
    destruct (step acc q) as [acc'|] eqn:Es; [|discriminate]. destruct (IH _ _ _ Hr H) as (l & Hl & Hn & Hfo).
    exists (q :: l). split; [|split].
    + rewrite E. econstructor; eassumption.
    + constructor; [|exact Hn]. destruct q; try exact I. contradiction Hid.
    + cbn [foldo]. rewrite Es. exact Hfo.
Qed.

Definition only {A} (step : A -> property -> option A) (has : property -> Prop) : Prop :=
  forall a q a', step a q = Some a' -> not_rri q -> has q.
Ltac only_tac := intros a q a' H Hn; destruct q; try contradiction Hn; try discriminate H; cbn; tauto.
Lemma connect_only : only connect_props_step connect_has. Proof. only_tac. Qed.
Lemma will_only : only will_props_step will_has. Proof. only_tac. Qed.
Lemma connack_only : only connack_props_step connack_has. Proof. only_tac. Qed.
Lemma publish_only : only publish_props_step publish_has. Proof. only_tac. Qed.
Lemma ack_only : only ack_props_step ack_has. Proof. only_tac. Qed.
Lemma subscribe_only : only subscribe_props_step subscribe_has. Proof. only_tac. Qed.
Lemma unsubscribe_only : only unsubscribe_props_step unsubscribe_has. Proof. only_tac. Qed.
Lemma disconnect_only : only disconnect_props_step disconnect_has. Proof. only_tac. Qed.
Lemma auth_only : only auth_props_step auth_has. Proof. only_tac. Qed.

Lemma fold_says {A} (step : A -> property -> option A) d has says l : folds step d has says -> only step has ->
  forall l0 a, Forall not_rri l -> foldo step (says l0) l = Some a -> Forall has l /\ a = says (l0 ++ l).
Proof.
  intros [_ Hf] Ho. induction l as [|q l IH]; intros l0 a Hn H; cbn [foldo] in H.
  - inv H. rewrite app_nil_r. split; [constructor|reflexivity].
  - inv Hn. destruct (step (says l0) q) as [a'|] eqn:E; [|discriminate]. pose proof (Ho _ _ _ E H2) as Hq.
    rewrite (Hf l0 q Hq H2) in E. inv E. destruct (IH _ _ H3 H) as [Hl ->]. split; [constructor; assumption|].
    rewrite <- app_assoc. reflexivity.
Qed.

Lemma props_gets {A} p short (step : A -> property -> option A) d has says :
  folds step d has says -> only step has ->
  gets (props_dec p short step d) (fun x a => exists l, lax_section l x /\ Forall has l /\ a = says l).
Proof.
  intros Hf Ho bs a r Hb H. unfold props_dec in H. apply bind_ok in H. destruct H as ([n r1] & H1 & H).
  destruct (vbi_gets p _ _ _ Hb H1) as (x & -> & Hr1 & Hx). clear Hb H1.
  destruct (n =? 0) eqn:E0.
  { inv H. exists x. split; [reflexivity|]. split; [exact Hr1|]. exists []. split; [|split; [constructor|symmetry; apply Hf]].
    exists x, []. rewrite app_nil_r. split; [reflexivity|]. split; [|constructor]. replace n with 0 in Hx by lia. exact Hx. }
  destruct (blen r1 <? n) eqn:El; [discriminate|]. apply bind_ok in H. destruct H as (a' & H & E). inv E.
  rewrite <- (btake_bdrop n r1) in Hr1. apply is_bytes_app in Hr1. destruct Hr1 as [Hb Hr].
  destruct (loop_gets _ _ _ _ _ _ Hb H) as (l & Hl & Hn & Hfo).
  rewrite <- (proj1 Hf) in Hfo. destruct (fold_says _ _ _ _ _ Hf Ho _ _ Hn Hfo) as [Hh ->].
  exists (x ++ btake n r1). rewrite <- app_assoc, btake_bdrop. split; [reflexivity|]. split; [exact Hr|].
  exists l. split; [|split; [exact Hh|reflexivity]]. exists x, (btake n r1). split; [reflexivity|]. rewrite blen_btake by lia. auto.
Qed.

Ltac assoc := cbn [app]; repeat (rewrite <- !app_assoc; cbn [app]); reflexivity.
Ltac take H a r H1 := apply bind_ok in H; destruct H as ([a r] & H1 & H).

Definition sect {A} (has : property -> Prop) (says : list property -> A) (x : bytes) (a : A) : Prop :=
  exists l, lax_section l x /\ Forall has l /\ a = says l.
Lemma sect_part {A} has (says : list property -> A) x a : sect has says x a -> lax_part has says V5 (Some a) x.
Proof. intros (l & Hs & Hl & ->). exists l. auto. Qed.

(** ** CONNECT *)

Lemma frame_gets p h bs n r : is_bytes bs -> vbi_dec p bs = Ok (n, r) ->
  is_bytes r /\ exists x, bs = x ++ r /\ forall body r', r = body ++ r' -> lax_frame h n body (h :: x ++ body).
Proof.
  intros Hb H. destruct (vbi_gets p _ _ _ Hb H) as (x & -> & Hr & Hx). split; [exact Hr|]. exists x. split; [reflexivity|].
  intros body r' _. exists x. auto.
Qed.

Lemma flags_sweep : forallb (fun b =>
  match connect_flags_of_byte b with
  | Ok f => (b =? 2 * bit (cf_clean_start f) + 4 * bit (cf_will_flag f) + 8 * ((b / 8) mod 4) + 32 * bit (cf_will_retain f)
              + 64 * bit (cf_password f) + 128 * bit (cf_user_name f)) &&
            (if cf_will_flag f then (qos_u8 (cf_will_qos f) =? (b / 8) mod 4) && (qos_u8 (cf_will_qos f) <? 3)
             else qos_eqb (cf_will_qos f) AtMostOnce)
  | _ => true
  end) (below 256) = true.
Proof. vm_compute. reflexivity. Qed.
Lemma qos_small q n : qos_u8 q = n -> n < 3 -> qos_bits q n.
Proof. destruct q; cbn; intros <- H; unfold qos_bits; cbn; auto; lia. Qed.
Lemma flags_gets : gets connect_flags_dec (fun x f => exists n, x = [n] /\ lax_connect_flags f n).
Proof.
  intros [|b bs] f r Hb H; [discriminate|]. cbn in H. apply bind_ok in H. destruct H as (f' & H & E). inv E. inv Hb.
  exists [b]. split; [reflexivity|]. split; [assumption|]. exists b. split; [reflexivity|].
  pose proof (sweep 256 _ flags_sweep b H2) as S. cbv beta in S. rewrite H in S. apply andb_prop in S. destruct S as [S1 S2].
  exists ((b / 8) mod 4). split; [lia|]. split; [lia|]. destruct (cf_will_flag f).
  - apply andb_prop in S2. destruct S2 as [S2 S3]. apply qos_small; lia.
  - destruct (cf_will_qos f); try discriminate. reflexivity.
Qed.

Lemma opt_gets (flag : bool) (dec : bytes -> res (bytes * bytes)) field bs o r : gets dec field -> is_bytes bs ->
  (if flag then do (u, r) <- dec bs; Ok (Some u, r) else Ok (None, bs)) = Ok (o, r) ->
  exists x, bs = x ++ r /\ is_bytes r /\ optional flag field o x.
Proof.
  intros Hg Hb H. destruct flag.
  - take H u r' H1. inv H. destruct (Hg _ _ _ Hb H1) as (x & -> & Hr & Hf). exists x. split; [reflexivity|]. split; [exact Hr|]. exists u. auto.
  - inv H. exists []. split; [reflexivity|]. split; [exact Hb|]. split; reflexivity.
Qed.
Lemma part_gets {A} p short step d has (says : list property -> A) v bs o r : folds step d has says -> only step has -> is_bytes bs ->
  (if supports_properties v then do (a, r) <- props_dec p short step d bs; Ok (Some a, r) else Ok (None, bs)) = Ok (o, r) ->
  exists x, bs = x ++ r /\ is_bytes r /\ lax_part has says v o x.
Proof.
  intros Hf Ho Hb H. destruct v; cbn [supports_properties] in H; try (inv H; exists []; repeat split; assumption).
  take H a r' H1. inv H. destruct (props_gets p short _ _ _ _ Hf Ho _ _ _ Hb H1) as (x & -> & Hr & Hx).
  exists x. split; [reflexivity|]. split; [exact Hr|]. apply sect_part, Hx.
Qed.

Lemma payload_gets p v f : gets (connect_payload_dec p v f) (fun x pl => lax_connect_payload v f pl x).
Proof.
  intros bs pl r Hb H. unfold connect_payload_dec in H. take H ci r1 H1. destruct (str_gets _ _ _ Hb H1) as (xi & -> & Hr1 & Hid). clear Hb H1.
  take H w r2 H1.
  assert (Hw : exists wp wt wd, r1 = (wp ++ wt ++ wd) ++ r2 /\ is_bytes r2 /\
    (if cf_will_flag f then lax_part will_has will_says v (fst (fst w)) wp else wp = [] /\ fst (fst w) = None) /\
    optional (cf_will_flag f) string_field (snd (fst w)) wt /\ optional (cf_will_flag f) data_field (snd w) wd).
  { destruct (cf_will_flag f).
    - take H1 a ra Ha. destruct (part_gets _ _ _ _ _ _ _ _ _ _ will_folds will_only Hr1 Ha) as (wp & -> & Hra & Hwp).
      take H1 t rt Ht. destruct (str_gets _ _ _ Hra Ht) as (wt & -> & Hrt & Hwt).
      take H1 d rd Hd. destruct (bin_gets _ _ _ Hrt Hd) as (wd & -> & Hrd & Hwd). inv H1.
      exists wp, wt, wd. rewrite <- !app_assoc. split; [reflexivity|]. split; [exact Hrd|]. split; [exact Hwp|].
      split; [exists t; auto|exists d; auto].
    - inv H1. exists [], [], []. repeat split; assumption. }
  destruct Hw as (wp & wt & wd & -> & Hr2 & Hwp & Hwt & Hwd). clear Hr1 H1.
  take H u r3 H1. destruct (opt_gets _ _ _ _ _ _ str_gets Hr2 H1) as (xu & -> & Hr3 & Hu). clear Hr2 H1.
  take H pw r4 H1. destruct (opt_gets _ _ _ _ _ _ bin_gets Hr3 H1) as (xp & -> & Hr4 & Hp). clear Hr3 H1.
  destruct w as [[a b] c]. inv H. cbn [fst snd] in *.
  exists (xi ++ (wp ++ wt ++ wd) ++ xu ++ xp). rewrite <- !app_assoc. split; [reflexivity|]. split; [exact Hr4|].
  exists xi, wp, wt, wd, xu, xp. cbn. rewrite <- !app_assoc. auto 10.
Qed.

Lemma connect_accept p v bs c r : is_bytes bs -> (forall h t, bs = h :: t -> h / 16 = 1) -> connect_dec p bs = Ok (c, r) ->
  exists x, bs = x ++ r /\ lenient v (Connect c) x.
Proof.
  intros Hb Hh H. unfold connect_dec in H. destruct bs as [|h bs]; [discriminate|]. inv Hb. rename H3 into Hb. cbn [advance1 bind] in H.
  specialize (Hh h bs eq_refl).
  take H m r1 H1. destruct (vbi_gets p _ _ _ Hb H1) as (n & -> & Hr1 & Hn). clear Hb H1.
  take H name r2 H1. destruct (str_gets _ _ _ Hr1 H1) as (xn & -> & Hr2 & Hname). clear Hr1 H1.
  take H lv r3 H1. destruct (u8_gets _ _ _ Hr2 H1) as (xl & -> & Hr3 & [-> Hlv]). clear Hr2 H1.
  destruct (from_name_and_level name lv) as [v'|] eqn:Ev; [|discriminate].
  take H f r4 H1. destruct (flags_gets _ _ _ Hr3 H1) as (xf & -> & Hr4 & fb & -> & Hf). clear Hr3 H1.
  take H ka r5 H1. destruct (u16_gets _ _ _ Hr4 H1) as (xk & -> & Hr5 & Hka). clear Hr4 H1.
  take H ps r6 H1. destruct (part_gets _ _ _ _ _ _ _ _ _ _ connect_folds connect_only Hr5 H1) as (xp & -> & Hr6 & Hps). clear Hr5 H1.
  take H pl r7 H1. destruct (payload_gets _ _ _ _ _ _ Hr6 H1) as (xpl & -> & Hr7 & Hpl). clear Hr6 H1. inv H.
  apply version_spec in Ev.
  assert (Ep : name = fst (protocol v') /\ lv = snd (protocol v')) by (destruct v'; exact Ev). destruct Ep as [-> ->].
  exists (h :: n ++ xn ++ [snd (protocol v')] ++ [fb] ++ xk ++ xp ++ xpl).
  split; [assoc|].
  exists h, m, xn, fb, xk, xp, xpl. split; [exact Hh|]. split; [exists n; auto|]. cbn. auto.
Qed.

(** ** CONNACK *)

Lemma session_sweep : forallb (fun e => if negb (N.land 254 e =? 0) then true else e =? bit (negb (N.land 1 e =? 0))) (below 256) = true.
Proof. vm_compute. reflexivity. Qed.
Lemma session_gets : gets connack_flags_dec (fun x b => x = [bit b]).
Proof.
  intros [|e bs] b r Hb H; [discriminate|]. cbn [connack_flags_dec get_u8 bind] in H. inv Hb.
  pose proof (sweep 256 _ session_sweep e H2) as S. cbv beta in S.
  unfold connack_flags_dec in H. cbn [get_u8 bind] in H.
  destruct (negb (N.land 254 e =? 0)); [discriminate|]. inv H. exists [e]. split; [reflexivity|]. split; [assumption|].
  f_equal. lia.
Qed.
Lemma get_gets : gets get_u8 int1.
Proof. intros [|b bs] a r Hb H; inv H. inv Hb. exists [a]. repeat split; assumption. Qed.

Lemma connack_accept p v bs c r : is_bytes bs -> (forall h t, bs = h :: t -> h / 16 = 2) ->
  (if supports_properties v then connack_dec p bs else connack_dec_v3 p bs) = Ok (c, r) ->
  exists x, bs = x ++ r /\ lenient v (ConnAck c) x.
Proof.
  intros Hb Hh H. destruct bs as [|h bs]; [destruct v; discriminate|]. inv Hb. rename H3 into Hb. specialize (Hh h bs eq_refl).
  destruct (supports_properties v) eqn:Es.
  - destruct v; try discriminate. unfold connack_dec in H. cbn [advance1 bind] in H.
    take H m r1 H1. destruct (vbi_gets p _ _ _ Hb H1) as (n & -> & Hr1 & Hn). clear Hb H1.
    take H sp r2 H1. destruct (session_gets _ _ _ Hr1 H1) as (xs & -> & Hr2 & ->). clear Hr1 H1.
    take H rc r3 H1. destruct (reason_gets _ _ _ Hr2 H1) as (xc & -> & Hr3 & ->). clear Hr2 H1.
    take H a r4 H1. destruct (props_gets _ _ _ _ _ _ connack_folds connack_only _ _ _ Hr3 H1) as (xp & -> & Hr4 & Hps). clear Hr3 H1.
    inv H. exists (h :: n ++ [bit sp] ++ [code rc] ++ xp).
    split; [assoc|].
    split; [reflexivity|]. exists h, m, (code rc), xp. split; [exact Hh|]. split; [exists n; auto|]. split; [left; reflexivity|].
    apply sect_part, Hps.
  - unfold connack_dec_v3 in H. cbn [advance1 bind] in H.
    take H m r1 H1. destruct (vbi_gets p _ _ _ Hb H1) as (n & -> & Hr1 & Hn). clear Hb H1.
    take H sp r2 H1. destruct (session_gets _ _ _ Hr1 H1) as (xs & -> & Hr2 & ->). clear Hr1 H1.
    take H rc r3 H1. destruct (get_gets _ _ _ Hr2 H1) as (xc & -> & Hr3 & -> & Hrc). clear Hr2 H1. inv H.
    exists (h :: n ++ [bit sp] ++ [rc] ++ []). split; [assoc|].
    split; [destruct v; [reflexivity|reflexivity|discriminate]|].
    exists h, m, rc, []. split; [exact Hh|]. split; [exists n; auto|]. split.
    + unfold lax_connect_code. destruct (rc <=? 5) eqn:E.
      * left. assert (rc = 0 \/ rc = 1 \/ rc = 2 \/ rc = 3 \/ rc = 4 \/ rc = 5) as [->|[->|[->|[->|[->| ->]]]]] by lia;
          destruct v; try discriminate; cbn; tauto.
      * right. split; [intros ->; discriminate|]. split; [lia|]. cbn [ca_reason_code].
        destruct rc as [|q]; [lia|]. do 3 (destruct q as [q|q|]; try lia; try reflexivity).
    + destruct v; try discriminate; split; reflexivity.
Qed.

(** ** PUBACK, PUBREC, PUBREL, PUBCOMP *)

Lemma ack_accept p bs a r : is_bytes bs -> ack_dec p bs = Ok (a, r) ->
  exists h m body x, bs = x ++ r /\ lax_frame h m body x /\ lax_ack m a body /\ exists t, bs = h :: t.
Proof.
  intros Hb H. destruct bs as [|h bs]; [discriminate|]. inv Hb. rename H3 into Hb. unfold ack_dec in H. cbn [advance1 bind] in H.
  take H m r1 H1. destruct (vbi_gets p _ _ _ Hb H1) as (n & -> & Hr1 & Hn). clear Hb H1.
  take H pid r2 H1. destruct (u16_gets _ _ _ Hr1 H1) as (xi & -> & Hr2 & Hi). clear Hr1 H1.
  destruct (m =? 2) eqn:Em.
  - inv H. exists h, m, xi, (h :: n ++ xi). split; [assoc|]. split; [exists n; auto|].
    split; [|cbn; eauto]. exists xi, []. rewrite app_nil_r, Em. auto.
  - take H rc r3 H1. destruct (reason_gets _ _ _ Hr2 H1) as (xc & -> & Hr3 & ->). clear Hr2 H1.
    take H ps r4 H1. destruct (props_gets _ _ _ _ _ _ ack_folds ack_only _ _ _ Hr3 H1) as (xp & -> & Hr4 & Hps). clear Hr3 H1. inv H.
    exists h, m, (xi ++ code rc :: xp), (h :: n ++ xi ++ code rc :: xp).
    split; [assoc|].
    split; [exists n; auto|]. split; [|eauto]. exists xi, (code rc :: xp). rewrite Em. split; [reflexivity|]. split; [exact Hi|].
    exists xp. split; [reflexivity|]. apply sect_part, Hps.
Qed.

(** ** Lists *)

Lemma loop_until {A} (dec : bytes -> res (A * bytes)) field next fuel : gets dec field ->
  forall bs l r, is_bytes bs -> payload_loop dec fuel next bs = Ok (l, r) ->
  exists x, bs = x ++ r /\ is_bytes r /\ until field (blen bs - next) x l.
Proof.
  intros Hg. induction fuel as [|fuel IH]; intros bs l r Hb H; cbn [payload_loop] in H.
  - case_if; [discriminate|]. inv H. exists []. split; [reflexivity|]. split; [exact Hb|]. replace (blen r - next) with 0 by lia. constructor.
  - case_if.
    + take H a r1 H1. take H l' r2 H2. inv H. destruct (Hg _ _ _ Hb H1) as (x & -> & Hr1 & Hx).
      destruct (IH _ _ _ Hr1 H2) as (y & -> & Hr2 & Hy). exists (x ++ y). rewrite <- app_assoc. split; [reflexivity|].
      split; [exact Hr2|]. constructor; [lia|exact Hx|].
      replace (blen (x ++ y ++ r) - next - blen x) with (blen (y ++ r) - next) by (rewrite (blen_app x); lia). exact Hy.
    + inv H. exists []. split; [reflexivity|]. split; [exact Hb|]. replace (blen r - next) with 0 by lia. constructor.
Qed.

Lemma list_gets {A} (dec : bytes -> res (A * bytes)) field p m pre bs fuel l r n : gets dec field -> is_bytes bs -> m <= vbi_max ->
  usize_sub p (blen (pre ++ bs)) m = Ok n -> payload_loop dec fuel n bs = Ok (l, r) ->
  exists x, bs = x ++ r /\ is_bytes r /\ lax_list field (m - blen pre) x l.
Proof.
  intros Hg Hb Hm Hn H. unfold usize_sub in Hn. rewrite blen_app in Hn. destruct (m <=? blen pre + blen bs) eqn:E.
  - inv Hn. destruct (loop_until _ _ _ _ Hg _ _ _ Hb H) as (x & Eb & Hr & Hu). exists x. split; [exact Eb|]. split; [exact Hr|]. left.
    replace (blen bs - (blen pre + blen bs - m)) with (m - blen pre) in Hu by lia. exact Hu.
  - destruct p; [discriminate|]. inv Hn. exists [].
    destruct fuel; cbn [payload_loop] in H;
      (replace (two64 + (blen pre + blen bs) - m <? blen bs) with false in H by (unfold two64, vbi_max in *; lia));
      inv H; (split; [reflexivity|]); (split; [exact Hb|]); right; auto.
Qed.

Lemma lax_int_max bs n : lax_int bs n -> n <= vbi_max.
Proof. intros [H1 H2]. apply (denotes_max bs); assumption. Qed.

Lemma options_sweep : forallb (fun n =>
  match sub_options_of_byte n with
  | Ok o => (n =? qos_u8 (so_qos o) + 4 * bit (so_no_local o) + 8 * bit (so_retain_as_pub o) + 16 * rh_u8 (so_retain_handling o))
            && (qos_u8 (so_qos o) <? 3) && (rh_u8 (so_retain_handling o) <? 3)
  | _ => true
  end) (below 256) = true.
Proof. vm_compute. reflexivity. Qed.
Lemma filter_gets : gets sub_filter_dec (fun x fo => exists f n, x = f ++ [n] /\ string_field f (fst fo) /\ options_field V5 (snd fo) n).
Proof.
  intros bs [f o] r Hb H. unfold sub_filter_dec in H. take H s r1 H1. destruct (str_gets _ _ _ Hb H1) as (x & -> & Hr1 & Hs). clear Hb H1.
  take H o' r2 H1. inv H. unfold sub_options_dec in H1. take H1 n r3 H2. destruct (get_gets _ _ _ Hr1 H2) as (y & -> & Hr3 & -> & Hn).
  apply bind_ok in H1. destruct H1 as (o' & H1 & E). inv E.
  pose proof (sweep 256 _ options_sweep n Hn) as S. cbv beta in S. rewrite H1 in S.
  apply andb_prop in S. destruct S as [S S3]. apply andb_prop in S. destruct S as [S1 S2].
  exists (x ++ [n]). rewrite <- app_assoc. split; [reflexivity|]. split; [exact Hr3|]. exists x, n. split; [reflexivity|]. split; [exact Hs|].
  cbn [snd]. exists (qos_u8 (so_qos o)), (rh_u8 (so_retain_handling o)). split; [apply qos_small; lia|].
  split; [|split; [lia|congruence]]. destruct (so_retain_handling o); cbn in *; auto; lia.
Qed.
Lemma code_gets : gets reason_dec (fun x r => exists n, x = [n] /\ lax_subscribe_code V5 r n).
Proof.
  intros bs a r Hb H. destruct (reason_gets _ _ _ Hb H) as (x & -> & Hr & ->). eexists. split; [reflexivity|]. split; [exact Hr|].
  eexists. split; [reflexivity|]. left. reflexivity.
Qed.
Lemma code_v3_gets v : supports_properties v = false -> gets suback_v3_code (fun x r => exists n, x = [n] /\ lax_subscribe_code v r n).
Proof.
  intros Hv bs a r Hb H. unfold suback_v3_code in H. take H c r1 H1. destruct (get_gets _ _ _ Hb H1) as (x & -> & Hr & -> & Hc). inv H.
  exists [c]. split; [reflexivity|]. split; [exact Hr|]. exists c. split; [reflexivity|]. unfold lax_subscribe_code.
  destruct (c <=? 2) eqn:E.
  - left. assert (c = 0 \/ c = 1 \/ c = 2) as [->|[->| ->]] by lia; destruct v; try discriminate; cbn; tauto.
  - right. split; [intros ->; discriminate|]. split; [lia|]. destruct c as [|q]; [lia|].
    do 8 (destruct q as [q|q|]; try lia; try reflexivity).
Qed.

Lemma subscribe_accept p v bs s r : is_bytes bs -> (forall h t, bs = h :: t -> h / 16 = 8) -> subscribe_dec p bs = Ok (s, r) ->
  exists x, bs = x ++ r /\ lenient v (Subscribe s) x.
Proof.
  intros Hb Hh H. destruct bs as [|h bs]; [discriminate|]. inv Hb. rename H3 into Hb. specialize (Hh h bs eq_refl).
  unfold subscribe_dec in H. cbn [advance1 bind] in H.
  take H m r1 H1. destruct (vbi_gets p _ _ _ Hb H1) as (n & -> & Hr1 & Hn). clear Hb H1.
  take H pid r2 H1. destruct (u16_gets _ _ _ Hr1 H1) as (xi & -> & Hr2 & Hi). clear Hr1 H1.
  take H a r3 H1. destruct (props_gets _ _ _ _ _ _ subscribe_folds subscribe_only _ _ _ Hr2 H1) as (xp & -> & Hr3 & Hps). clear Hr2 H1.
  case_if; [discriminate|]. apply bind_ok in H. destruct H as (nx & Hnx & H). take H pl r4 H1. rewrite app_assoc in Hnx.
  destruct (list_gets _ _ _ _ _ _ _ _ _ _ filter_gets Hr3 (lax_int_max _ _ Hn) Hnx H1) as (xl & -> & Hr4 & Hl). inv H.
  exists (h :: n ++ xi ++ xp ++ xl). split; [assoc|].
  exists h, m, xi, xp, xl. split; [exact Hh|]. split; [exists n; auto|]. split; [exact Hi|]. split; [apply sect_part, Hps|exact Hl].
Qed.
Lemma unsubscribe_accept p v bs s r : is_bytes bs -> (forall h t, bs = h :: t -> h / 16 = 10) -> unsubscribe_dec p bs = Ok (s, r) ->
  exists x, bs = x ++ r /\ lenient v (Unsubscribe s) x.
Proof.
  intros Hb Hh H. destruct bs as [|h bs]; [discriminate|]. inv Hb. rename H3 into Hb. specialize (Hh h bs eq_refl).
  unfold unsubscribe_dec in H. cbn [advance1 bind] in H.
  take H m r1 H1. destruct (vbi_gets p _ _ _ Hb H1) as (n & -> & Hr1 & Hn). clear Hb H1.
  take H pid r2 H1. destruct (u16_gets _ _ _ Hr1 H1) as (xi & -> & Hr2 & Hi). clear Hr1 H1.
  take H a r3 H1. destruct (props_gets _ _ _ _ _ _ unsubscribe_folds unsubscribe_only _ _ _ Hr2 H1) as (xp & -> & Hr3 & Hps). clear Hr2 H1.
  case_if; [discriminate|]. apply bind_ok in H. destruct H as (nx & Hnx & H). take H pl r4 H1. rewrite app_assoc in Hnx.
  destruct (list_gets _ _ _ _ _ _ _ _ _ _ str_gets Hr3 (lax_int_max _ _ Hn) Hnx H1) as (xl & -> & Hr4 & Hl). inv H.
  exists (h :: n ++ xi ++ xp ++ xl). split; [assoc|].
  exists h, m, xi, xp, xl. split; [exact Hh|]. split; [exists n; auto|]. split; [exact Hi|]. split; [apply sect_part, Hps|exact Hl].
Qed.
Lemma suback_accept p v bs s r : is_bytes bs -> (forall h t, bs = h :: t -> h / 16 = 9) ->
  (if supports_properties v then suback_dec p bs else suback_dec_v3 p bs) = Ok (s, r) ->
  exists x, bs = x ++ r /\ lenient v (SubAck s) x.
Proof.
  intros Hb Hh H. destruct bs as [|h bs]; [destruct v; discriminate|]. inv Hb. rename H3 into Hb. specialize (Hh h bs eq_refl).
  destruct (supports_properties v) eqn:Es.
  - destruct v; try discriminate. unfold suback_dec in H. cbn [advance1 bind] in H.
    take H m r1 H1. destruct (vbi_gets p _ _ _ Hb H1) as (n & -> & Hr1 & Hn). clear Hb H1.
    take H pid r2 H1. destruct (u16_gets _ _ _ Hr1 H1) as (xi & -> & Hr2 & Hi). clear Hr1 H1.
    take H a r3 H1. destruct (props_gets _ _ _ _ _ _ ack_folds ack_only _ _ _ Hr2 H1) as (xp & -> & Hr3 & Hps). clear Hr2 H1.
    case_if; [discriminate|]. apply bind_ok in H. destruct H as (nx & Hnx & H). take H pl r4 H1. rewrite app_assoc in Hnx.
    destruct (list_gets _ _ _ _ _ _ _ _ _ _ code_gets Hr3 (lax_int_max _ _ Hn) Hnx H1) as (xl & -> & Hr4 & Hl). inv H.
    exists (h :: n ++ xi ++ xp ++ xl). split; [assoc|]. split; [reflexivity|].
    exists h, m, xi, xp, xl. split; [exact Hh|]. split; [exists n; auto|]. split; [exact Hi|]. split; [apply sect_part, Hps|exact Hl].
  - unfold suback_dec_v3 in H. cbn [advance1 bind] in H.
    take H m r1 H1. destruct (vbi_gets p _ _ _ Hb H1) as (n & -> & Hr1 & Hn). clear Hb H1.
    take H pid r2 H1. destruct (u16_gets _ _ _ Hr1 H1) as (xi & -> & Hr2 & Hi). clear Hr1 H1.
    apply bind_ok in H. destruct H as (nx & Hnx & H). take H pl r4 H1.
    destruct (list_gets _ _ _ _ _ _ _ _ _ _ (code_v3_gets v Es) Hr2 (lax_int_max _ _ Hn) Hnx H1) as (xl & -> & Hr4 & Hl). inv H.
    exists (h :: n ++ xi ++ [] ++ xl). split; [assoc|].
    split; [destruct v; [reflexivity|reflexivity|discriminate]|].
    exists h, m, xi, [], xl. split; [exact Hh|]. split; [exists n; auto|]. split; [exact Hi|].
    split; [destruct v; try discriminate; split; reflexivity|]. rewrite app_nil_r. exact Hl.
Qed.
Lemma unsuback_accept p v bs s r : is_bytes bs -> (forall h t, bs = h :: t -> h / 16 = 11) ->
  (if supports_properties v then unsuback_dec p bs else unsuback_dec_v3 p bs) = Ok (s, r) ->
  exists x, bs = x ++ r /\ lenient v (UnsubAck s) x.
Proof.
  intros Hb Hh H. destruct bs as [|h bs]; [destruct v; discriminate|]. inv Hb. rename H3 into Hb. specialize (Hh h bs eq_refl).
  destruct (supports_properties v) eqn:Es.
  - destruct v; try discriminate. unfold unsuback_dec in H. cbn [advance1 bind] in H.
    take H m r1 H1. destruct (vbi_gets p _ _ _ Hb H1) as (n & -> & Hr1 & Hn). clear Hb H1.
    take H pid r2 H1. destruct (u16_gets _ _ _ Hr1 H1) as (xi & -> & Hr2 & Hi). clear Hr1 H1.
    take H a r3 H1. destruct (props_gets _ _ _ _ _ _ ack_folds ack_only _ _ _ Hr2 H1) as (xp & -> & Hr3 & Hps). clear Hr2 H1.
    case_if; [discriminate|]. apply bind_ok in H. destruct H as (nx & Hnx & H). take H pl r4 H1. rewrite app_assoc in Hnx.
    destruct (list_gets _ _ _ _ _ _ _ _ _ _ reason_gets Hr3 (lax_int_max _ _ Hn) Hnx H1) as (xl & -> & Hr4 & Hl). inv H.
    exists (h :: n ++ xi ++ xp ++ xl). split; [assoc|]. split; [reflexivity|].
    exists h, m, xi, xp, xl. split; [exact Hh|]. split; [exists n; auto|]. split; [exact Hi|]. split; [apply sect_part, Hps|exact Hl].
  - unfold unsuback_dec_v3 in H. cbn [advance1 bind] in H.
    take H m r1 H1. destruct (vbi_gets p _ _ _ Hb H1) as (n & -> & Hr1 & Hn). clear Hb H1.
    take H pid r2 H1. destruct (u16_gets _ _ _ Hr1 H1) as (xi & -> & Hr2 & Hi). clear Hr1 H1. inv H.
    exists (h :: n ++ xi ++ [] ++ []). split; [assoc|].
    split; [destruct v; [reflexivity|reflexivity|discriminate]|].
    exists h, m, xi, [], []. split; [exact Hh|]. split; [exists n; auto|]. split; [exact Hi|].
    destruct v; try discriminate; repeat split; reflexivity.
Qed.

(** ** DISCONNECT, AUTH *)

Lemma disconnect_accept p v bs d r : is_bytes bs -> (forall h t, bs = h :: t -> h / 16 = 14) -> disconnect_dec p bs = Ok (d, r) ->
  exists x, bs = x ++ r /\ lenient v (Disconnect d) x.
Proof.
  intros Hb Hh H. destruct bs as [|h bs]; [discriminate|]. inv Hb. rename H3 into Hb. specialize (Hh h bs eq_refl).
  unfold disconnect_dec in H. cbn [get_u8 bind] in H. destruct (negb (N.land h 15 =? 0)) eqn:El; [discriminate|].
  assert (Eh : h = 224).
  { apply negb_false_iff, N.eqb_eq in El. change 15 with (N.ones 4) in El. rewrite N.land_ones in El. change (2 ^ 4) with 16 in El. lia. }
  subst h.
  take H m r1 H1. destruct (vbi_gets p _ _ _ Hb H1) as (n & -> & Hr1 & Hn). clear Hb H1.
  destruct (m =? 0) eqn:Em.
  - replace (m <? 1) with true in H by lia. replace (m <? 2) with true in H by lia. cbn [bind] in H. inv H.
    exists (224 :: n ++ []). split; [rewrite app_nil_r; reflexivity|]. exists m, []. split; [exists n; auto|]. rewrite Em. auto.
  - replace (m <? 1) with false in H by lia. take H rc r2 H1.
    destruct (reason_gets _ _ _ Hr1 H1) as (xc & -> & Hr2 & ->). clear Hr1 H1.
    destruct (m =? 1) eqn:Em1.
    + replace (m <? 2) with true in H by lia. cbn [bind] in H. inv H. exists (224 :: n ++ [code rc]).
      split; [cbn [app]; rewrite <- app_assoc; reflexivity|].
      exists m, [code rc]. split; [exists n; auto|]. rewrite Em. exists []. rewrite Em1. auto.
    + replace (m <? 2) with false in H by lia. take H o r3 H1. take H1 a r4 H3.
      destruct (props_gets _ _ _ _ _ _ disconnect_folds disconnect_only _ _ _ Hr2 H3) as (xp & -> & Hr4 & Hps). inv H1. inv H.
      exists (224 :: n ++ code rc :: xp). split; [cbn [app]; rewrite <- app_assoc; reflexivity|].
      exists m, (code rc :: xp). split; [exists n; auto|]. rewrite Em. exists xp. rewrite Em1. split; [reflexivity|]. apply sect_part, Hps.
Qed.
Lemma auth_accept p v bs d r : is_bytes bs -> (forall h t, bs = h :: t -> h / 16 = 15) -> auth_dec p bs = Ok (d, r) ->
  exists x, bs = x ++ r /\ lenient v (Auth d) x.
Proof.
  intros Hb Hh H. destruct bs as [|h bs]; [discriminate|]. inv Hb. rename H3 into Hb. specialize (Hh h bs eq_refl).
  unfold auth_dec in H. cbn [get_u8 bind] in H. destruct (negb (N.land h 15 =? 0)) eqn:El; [discriminate|].
  assert (Eh : h = 240).
  { apply negb_false_iff, N.eqb_eq in El. change 15 with (N.ones 4) in El. rewrite N.land_ones in El. change (2 ^ 4) with 16 in El. lia. }
  subst h.
  take H m r1 H1. destruct (vbi_gets p _ _ _ Hb H1) as (n & -> & Hr1 & Hn). clear Hb H1.
  take H rc r2 H1. destruct (reason_gets _ _ _ Hr1 H1) as (xc & -> & Hr2 & ->). clear Hr1 H1.
  take H a r4 H3. destruct (props_gets _ _ _ _ _ _ auth_folds auth_only _ _ _ Hr2 H3) as (xp & -> & Hr4 & Hps). inv H.
  exists (240 :: n ++ code rc :: xp). split; [cbn [app]; rewrite <- app_assoc; reflexivity|].
  exists m, xp. split; [exists n; auto|]. apply sect_part, Hps.
Qed.

(** ** PUBLISH *)

Lemma lax_value_wf q x : lax_value q x -> wf_prop q.
Proof.
  intros H. destruct q; cbn [lax_value] in H; try (apply value_iff in H; apply H); try exact I.
  cbn. apply (lax_int_max _ _ H).
Qed.
Lemma lax_properties_wf l x : lax_properties l x -> Forall wf_prop l.
Proof. induction 1; constructor; [|assumption]. eapply lax_value_wf; eassumption. Qed.

Lemma the_in {A} (f : property -> option A) l a : the f l = Some a -> exists q, In q l /\ f q = Some a.
Proof.
  induction l as [|q l IH]; cbn [the]; [discriminate|]. destruct (the f l) as [b|].
  - intros H. inv H. destruct (IH eq_refl) as (x & Hx & Hf). exists x. split; [right; exact Hx|exact Hf].
  - intros H. exists q. split; [left; reflexivity|exact H].
Qed.
Lemma wf_the {A} (P : A -> property) f l : Forall wf_prop l -> (forall q a, f q = Some a -> q = P a) -> Forall wf_prop (olist P (the f l)).
Proof.
  intros Hl Hf. destruct (the f l) as [a|] eqn:E; [|constructor]. destruct (the_in _ _ _ E) as (q & Hq & Hfq).
  rewrite Forall_forall in Hl. constructor; [|constructor]. rewrite <- (Hf _ _ Hfq). apply Hl, Hq.
Qed.
Lemma wf_users l : Forall wf_prop l -> Forall wf_prop (ulist (users l)).
Proof.
  intros Hl. unfold users. set (us := flat_map _ l).
  assert (Hu : Forall wf_prop (map (fun kv => PUserProperty (fst kv) (snd kv)) us)).
  { unfold us. clear us. induction Hl as [|q l Hq Hl IH]; [constructor|]. cbn [flat_map]. rewrite map_app. apply Forall_app.
    split; [|exact IH]. destruct q; try constructor; [exact Hq|constructor]. }
  destruct us; [constructor|exact Hu].
Qed.
Lemma publish_says_wf l : Forall wf_prop l -> wf_publish_props (publish_says l).
Proof.
  intros Hl. split.
  - unfold publish_props_list, publish_says.
    cbn [pp_payload_format_indicator pp_message_expiry_interval pp_topic_alias pp_response_topic pp_correlation_data
         pp_user_property pp_subscription_identifier pp_content_type].
    rewrite !Forall_app. repeat match goal with |- _ /\ _ => split end;
      first [apply wf_users, Hl | apply wf_the; [exact Hl|intros q a H; destruct q; inv H; reflexivity]].
  - unfold wf_user, publish_says. cbn [pp_user_property]. unfold users. destruct (flat_map _ l); discriminate.
Qed.

Lemma vbi_enc_mono a b : a <= b -> b <= vbi_max -> blen (vbi_enc a) <= blen (vbi_enc b).
Proof.
  intros Hab Hb. pose proof (vbi_size_spec a (N.le_trans _ _ _ Hab Hb)) as Ha. pose proof (vbi_size_spec b Hb) as Hb'.
  unfold vbi_size in *. repeat (case_if; [|]); inv Ha; inv Hb'; lia.
Qed.

Lemma publish_props_gets p bs a r : is_bytes bs ->
  props_dec p PacketIncomplete publish_props_step publish_props_default bs = Ok (a, r) ->
  exists x x', bs = x ++ r /\ is_bytes r /\ lax_part publish_has publish_says V5 (Some a) x /\
    props_part publish_has publish_says V5 (Some a) x' /\ blen x' <= blen x /\
    exists psz vsz, props_size (publish_props_size_list a) = Ok psz /\ vsize psz = Ok vsz /\ blen x' = psz + vsz.
Proof.
  intros Hb H. destruct (props_dec_size p PacketIncomplete _ publish_props_default publish_props_list _ _ _ publish_step_bounded eq_refl Hb H)
    as (len & body & Eb & Hden & Hlen & Hsm & Hsz).
  destruct (props_gets _ _ _ _ _ _ publish_folds publish_only _ _ _ Hb H) as (x & -> & Hr & l & Hx & Hl & ->).
  rewrite app_assoc in Eb. apply app_inv_tail in Eb. subst x.
  pose proof Hx as (n & body' & _ & _ & Hp). apply lax_properties_wf, publish_says_wf in Hp. clear n body'.
  destruct (proj2 publish_writes _ Hp) as (Hw & Hh & Ho & Hs).
  set (a := publish_says l) in *. unfold psize in Hsz.
  assert (Hm : blen body <= vbi_max) by (apply (denotes_max len); [exact Hden|apply Hlen]).
  assert (Hm' : blen (props_enc (publish_props_list a)) <= vbi_max) by lia.
  exists (len ++ body), (vbi_enc (blen (props_enc (publish_props_list a))) ++ props_enc (publish_props_list a)).
  split; [reflexivity|]. split; [exact Hr|]. split; [exists l; auto|]. split.
  - exists (publish_props_list a). split; [apply section_iff; auto|]. rewrite Hs. auto.
  - split.
    + rewrite !blen_app. pose proof (vbi_enc_mono _ _ Hsz Hm). pose proof (vbi_enc_minimal _ _ Hm Hden). lia.
    + exists (blen (props_enc (publish_props_list a))), (blen (vbi_enc (blen (props_enc (publish_props_list a))))).
      split; [rewrite publish_props_size_list_eq; apply props_size_wf, Hw|]. split; [|rewrite blen_app; lia].
      unfold vsize, as_u32. rewrite N.mod_small by (unfold two32, vbi_max in *; lia). apply vbi_size_spec, Hm'.
Qed.

Lemma header_sweep : forallb (fun h => if h / 16 =? 3 then
    (h =? 48 + 8 * bit (negb (N.land h 8 =? 0)) + 2 * (N.land h 6 / 2) + bit (negb (N.land h 1 =? 0))) && (N.land h 6 / 2 <? 4) else true)
  (below 256) = true.
Proof. vm_compute. reflexivity. Qed.
Lemma qos_from_bits n q : n < 4 -> qos_from n = q -> q <> QInvalid -> qos_bits q n.
Proof.
  intros Hn <- Hq. assert (n = 0 \/ n = 1 \/ n = 2 \/ n = 3) as [->|[->|[->| ->]]] by lia; unfold qos_bits; cbn; auto; contradiction Hq; reflexivity.
Qed.

Lemma publish_accept p v bs b r : is_bytes bs -> blen bs < two64 -> (forall h t, bs = h :: t -> h / 16 = 3) -> publish_dec p bs = Ok (b, r) ->
  exists x, bs = x ++ r /\ lenient v (Publish b) x.
Proof.
  intros Hb Hlen Hh H. destruct bs as [|h bs]; [discriminate|]. inv Hb. rename H3 into Hb. specialize (Hh h bs eq_refl).
  pose proof (sweep 256 _ header_sweep h H2) as S. cbv beta in S. rewrite Hh in S. change (3 =? 3) with true in S. cbv iota in S.
  apply andb_prop in S. destruct S as [S1 S2].
  unfold publish_dec in H. cbn [get_u8 bind] in H.
  set (dup := negb (N.land h 8 =? 0)) in *. set (q := N.land h 6 / 2) in *. set (ret := negb (N.land h 1 =? 0)) in *.
  clearbody dup q ret.
  take H m r1 H1. destruct (vbi_gets p _ _ _ Hb H1) as (n & -> & Hr1 & Hn). clear Hb H1.
  take H topic r2 H1. destruct (str_gets _ _ _ Hr1 H1) as (xt & -> & Hr2 & Ht). clear Hr1 H1.
  take H pid r3 H1.
  assert (Hpid : exists xi, r2 = xi ++ r3 /\ is_bytes r3 /\ qos_from q <> QInvalid /\ blen xi = pid_size pid /\
    match qos_from q with
    | AtMostOnce => xi = [] /\ pid = None
    | _ => exists i, int2 xi i /\ pid = Some i
    end).
  { destruct (qos_from q); [| | |discriminate].
    - inv H1. exists []. repeat split; auto; discriminate.
    - take H1 i ri Hi. inv H1. destruct (u16_gets _ _ _ Hr2 Hi) as (xi & -> & Hr3 & Hx). exists xi. split; [reflexivity|].
      split; [exact Hr3|]. split; [discriminate|]. split; [|exists i; auto]. destruct Hx as (? & ? & -> & _). reflexivity.
    - take H1 i ri Hi. inv H1. destruct (u16_gets _ _ _ Hr2 Hi) as (xi & -> & Hr3 & Hx). exists xi. split; [reflexivity|].
      split; [exact Hr3|]. split; [discriminate|]. split; [|exists i; auto]. destruct Hx as (? & ? & -> & _). reflexivity. }
  destruct Hpid as (xi & -> & Hr3 & Hq & Hil & Hid). clear Hr2 H1.
  take H a r4 H1. destruct (publish_props_gets _ _ _ _ Hr3 H1) as (xp & xp' & -> & Hr4 & Hps & Hps' & Hle & psz & vsz & E1 & E2 & E3).
  clear Hr3 H1. rewrite E1 in H. cbn [bind] in H. rewrite E2 in H. cbn [bind] in H.
  apply bind_ok in H. destruct H as (pl & Hpl & H). destruct (blen r4 <? pl) eqn:El; [discriminate|]. inv H.
  assert (Hxt : blen xt = str_size topic) by (apply string_iff in Ht; destruct Ht as [_ ->]; apply blen_str_enc).
  rewrite blen_cons, !blen_app in Hlen.
  assert (Hm : m = blen (xt ++ xi ++ xp' ++ btake pl r4)).
  { rewrite !blen_app, blen_btake by lia. unfold usize_sub in Hpl. destruct (_ <=? m) eqn:E in Hpl; [inv Hpl; lia|].
    exfalso. destruct p; [discriminate|]. inv Hpl. lia. }
  exists ((48 + 8 * bit dup + 2 * q + bit ret) :: n ++ xt ++ xi ++ xp ++ btake pl r4).
  split. { replace h with (48 + 8 * bit dup + 2 * q + bit ret) by lia. cbn [app]. repeat (rewrite <- !app_assoc; cbn [app]). rewrite btake_bdrop. reflexivity. }
  exists m, q, xt, xi, xp, xp', (btake pl r4). cbn [pb_dup pb_retain pb_qos pb_topic pb_packet_id pb_properties pb_payload].
  split; [exists n; auto|]. split; [apply qos_from_bits; [lia|reflexivity|exact Hq]|]. split; [exact Ht|]. split; [exact Hid|].
  split; [exact Hps|]. split; [reflexivity|]. split; [apply is_bytes_btake, Hr4|]. auto.
Qed.

(** ** All packets *)

Lemma packet_accept p v bs k r : is_bytes bs -> blen bs < two64 -> parse_with_version p v bs = Ok (k, r) ->
  exists x, bs = x ++ r /\ lenient v k x.
Proof.
  intros Hb Hl H. destruct bs as [|h t]; [discriminate|].
  assert (Hh : h < 256) by (inv Hb; assumption).
  assert (Hn : h / 16 = 0 \/ h / 16 = 1 \/ h / 16 = 2 \/ h / 16 = 3 \/ h / 16 = 4 \/ h / 16 = 5 \/ h / 16 = 6 \/ h / 16 = 7 \/
    h / 16 = 8 \/ h / 16 = 9 \/ h / 16 = 10 \/ h / 16 = 11 \/ h / 16 = 12 \/ h / 16 = 13 \/ h / 16 = 14 \/ h / 16 = 15) by lia.
  unfold parse_with_version in H.
  assert (Hty : forall x, h / 16 = x -> forall h0 t0, h :: t = h0 :: t0 -> h0 / 16 = x) by (intros x Hx h0 t0 E; injection E as <- <-; exact Hx).
  destruct Hn as [E|[E|[E|[E|[E|[E|[E|[E|[E|[E|[E|[E|[E|[E|[E|E]]]]]]]]]]]]]]];
    rewrite E in H; cbv beta iota in H; try discriminate H; unfold lift_packet in H; apply bind_ok in H;
    destruct H as ([a r'] & H & Hk); inv Hk.
  - exact (connect_accept p v _ _ _ Hb (Hty _ E) H).
  - exact (connack_accept p v _ _ _ Hb (Hty _ E) H).
  - exact (publish_accept p v _ _ _ Hb Hl (Hty _ E) H).
  - destruct (ack_accept _ _ _ _ Hb H) as (h' & m & body & x & Ex & Hf & Ha & t' & Et). inv Et.
    exists x. split; [exact Ex|]. exists h', m, body. auto.
  - destruct (ack_accept _ _ _ _ Hb H) as (h' & m & body & x & Ex & Hf & Ha & t' & Et). inv Et.
    exists x. split; [exact Ex|]. exists h', m, body. auto.
  - destruct (ack_accept _ _ _ _ Hb H) as (h' & m & body & x & Ex & Hf & Ha & t' & Et). inv Et.
    exists x. split; [exact Ex|]. exists h', m, body. auto.
  - destruct (ack_accept _ _ _ _ Hb H) as (h' & m & body & x & Ex & Hf & Ha & t' & Et). inv Et.
    exists x. split; [exact Ex|]. exists h', m, body. auto.
  - exact (subscribe_accept p v _ _ _ Hb (Hty _ E) H).
  - exact (suback_accept p v _ _ _ Hb (Hty _ E) H).
  - exact (unsubscribe_accept p v _ _ _ Hb (Hty _ E) H).
  - exact (unsuback_accept p v _ _ _ Hb (Hty _ E) H).
  - cbn in H. inv H. exists [h]. split; [reflexivity|]. exists h. auto.
  - cbn in H. inv H. exists [h]. split; [reflexivity|]. exists h. auto.
  - exact (disconnect_accept p v _ _ _ Hb (Hty _ E) H).
  - exact (auth_accept p v _ _ _ Hb (Hty _ E) H).
Qed.
