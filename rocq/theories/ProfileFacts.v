(** What a build with overflow checks and one without have in common (for Properties_Profile.v). *)
From Verif Require Import Base Codec Str SpecCodec Property SpecProperty PacketProps Packets SpecPackets Frame Tac CodecFacts ParseFacts WireFacts FrameFacts WireConform WireAccept.

(** The checked build does the same, or it panics and the unchecked one gives nothing but what [P] allows. *)
Definition ag {A} (P : A -> Prop) (d r : res A) : Prop := d = r \/ (d = Panic /\ forall a, r = Ok a -> P a).
Definition no {A} (_ : A) : Prop := False.

Lemma ag_refl {A} P (r : res A) : ag P r r.
Proof. left. reflexivity. Qed.
Lemma ag_weaken {A} (P Q : A -> Prop) d r : (forall a, P a -> Q a) -> ag P d r -> ag Q d r.
Proof. intros H [->|[-> Hp]]; [left; reflexivity|]. right. split; [reflexivity|]. intros a Ha. apply H, Hp, Ha. Qed.
Lemma ag_bind {A B} (P : B -> Prop) (d r : res A) f g : ag no d r -> (forall a, ag P (f a) (g a)) -> ag P (bind d f) (bind r g).
Proof.
  intros [->|[-> Hn]] H; [destruct r; cbn [bind]; [apply H|left; reflexivity|left; reflexivity]|].
  right. split; [reflexivity|]. destruct r as [a| |]; [destruct (Hn a eq_refl)|discriminate|discriminate].
Qed.

Lemma vbi_loop_ag bs : forall m v, (m = 1 \/ m = 128 \/ m = 16384 \/ m = 2097152 \/ m = 268435456) -> v < m -> ag no (vbi_dec_loop Debug m v bs) (vbi_dec_loop Release m v bs).
Proof.
  induction bs as [|b bs IH]; intros m v Hm Hv; [left; reflexivity|]. cbn [vbi_dec_loop]. assert (Hb : N.land b 127 < 128) by (rewrite land_127; apply N.mod_lt; discriminate).
  set (x := N.land b 127) in *. clearbody x. destruct (m =? 268435456) eqn:E5.
  - apply N.eqb_eq in E5. subst m. change (128 * 128 * 128 <? 268435456) with true. unfold u32_mul, two32. destruct (x * 268435456 <? 4294967296) eqn:E1.
    + cbn [bind]. rewrite !u32_add_small by (unfold two32; lia). cbn [bind]. left. reflexivity.
    + right. split; [reflexivity|]. cbn [bind]. unfold u32_add. destruct (_ <? two32); discriminate.
  - apply N.eqb_neq in E5. assert (Hm' : m <= 2097152) by (destruct Hm as [->|[->|[->|[->| ->]]]]; lia).
    assert (Hx : x * m <= 127 * m) by (apply N.mul_le_mono_r; lia).
    rewrite !u32_mul_small by (unfold two32; lia). cbn [bind]. rewrite !u32_add_small by (unfold two32; lia). cbn [bind].
    replace (128 * 128 * 128 <? m) with false by lia. destruct (N.land b 128 =? 0); [left; reflexivity|]. apply IH; [|lia].
    destruct Hm as [->|[->|[->|[->| ->]]]]; lia.
Qed.
Lemma vbi_ag bs : ag no (vbi_dec Debug bs) (vbi_dec Release bs).
Proof. apply vbi_loop_ag; lia. Qed.

(** The decoders are the same but for the profile they pass on. *)
Ltac ag :=
  repeat first
    [ apply ag_refl | apply vbi_ag | assumption
    | apply ag_bind; [|intros ?; repeat match goal with a : (_ * _)%type |- _ => destruct a end]
    | match goal with
      | |- ag _ (if ?x then _ else _) _ => destruct x
      | |- ag _ (match ?x with _ => _ end) _ => destruct x
      end ].
Lemma lift_ag {A} (f : A -> property) d r : ag no d r -> ag no (Property.lift f d) (Property.lift f r).
Proof. intros H. unfold Property.lift. ag. Qed.
Lemma prop_ag bs : ag no (prop_dec Debug bs) (prop_dec Release bs).
Proof.
  unfold prop_dec. ag. destruct (N.eq_dec n 0xb) as [->|Hn]; [apply lift_ag, vbi_ag|]. left. unfold prop_dec_with_id.
  destruct n as [|q]; [reflexivity|]. repeat (destruct q as [q|q|]; try reflexivity). congruence.
Qed.
Lemma props_loop_ag {A} (step : A -> property -> option A) fuel : forall acc bs, ag no (props_loop Debug step fuel acc bs) (props_loop Release step fuel acc bs).
Proof.
  induction fuel as [|fuel IH]; intros acc bs; cbn [props_loop]; [destruct bs; apply ag_refl|]. destruct bs as [|b bs]; [apply ag_refl|].
  apply ag_bind; [apply prop_ag|]. intros [q r]. destruct (step acc q); [apply IH|apply ag_refl].
Qed.
Lemma props_ag {A} short (step : A -> property -> option A) d bs : ag no (props_dec Debug short step d bs) (props_dec Release short step d bs).
Proof. unfold props_dec. ag. apply props_loop_ag. Qed.
Ltac ag' := repeat first [apply props_ag | apply props_loop_ag | progress ag].

(** [usize_sub]: a checked build panics. *)
Lemma usize_ag {A} (P : A -> Prop) a b f g : (b <= a -> ag P (f (a - b)) (g (a - b))) -> (a < b -> forall x, g (two64 + a - b) = Ok x -> P x) ->
  ag P (bind (usize_sub Debug a b) f) (bind (usize_sub Release a b) g).
Proof.
  intros H1 H2. unfold usize_sub. destruct (b <=? a) eqn:E; cbn [bind]; [apply H1; lia|]. right. split; [reflexivity|]. apply H2. lia.
Qed.

Lemma connect_payload_ag v fl bs : ag no (connect_payload_dec Debug v fl bs) (connect_payload_dec Release v fl bs).
Proof. unfold connect_payload_dec. ag'. Qed.
Lemma connect_ag bs : ag no (connect_dec Debug bs) (connect_dec Release bs).
Proof. unfold connect_dec. ag'. all: apply connect_payload_ag. Qed.
Lemma connack_ag bs : ag no (connack_dec Debug bs) (connack_dec Release bs).
Proof. unfold connack_dec. ag'. Qed.
Lemma connack3_ag bs : ag no (connack_dec_v3 Debug bs) (connack_dec_v3 Release bs).
Proof. unfold connack_dec_v3. ag'. Qed.
Lemma ack_ag bs : ag no (ack_dec Debug bs) (ack_dec Release bs).
Proof. unfold ack_dec. ag'. Qed.
Lemma disconnect_ag bs : ag no (disconnect_dec Debug bs) (disconnect_dec Release bs).
Proof. unfold disconnect_dec. ag'. Qed.
Lemma auth_ag bs : ag no (auth_dec Debug bs) (auth_dec Release bs).
Proof. unfold auth_dec. ag'. Qed.
Lemma unsuback3_ag bs : ag no (unsuback_dec_v3 Debug bs) (unsuback_dec_v3 Release bs).
Proof. unfold unsuback_dec_v3. ag'. Qed.

(** A payload loop up to a wrapped-around mark reads nothing. *)
Lemma payload_none {A} (dec : bytes -> res (A * bytes)) fuel n bs l r : blen bs <= n -> payload_loop dec fuel n bs = Ok (l, r) -> l = [].
Proof. intros H. destruct fuel; cbn [payload_loop]; replace (n <? blen bs) with false by lia; intros E; inversion E; reflexivity. Qed.

(** What is left is not longer; a length is a [u32]. *)
Lemma vbi_loop_left p bs : forall m v n r, vbi_dec_loop p m v bs = Ok (n, r) -> n < two32 /\ blen r <= blen bs.
Proof.
  induction bs as [|b bs IH]; intros m v n r H; [discriminate|]. cbn [vbi_dec_loop] in H.
  apply bind_ok in H. destruct H as (t & _ & H). apply bind_ok in H. destruct H as (v' & Hv & H). destruct (_ <? m); [discriminate|].
  apply bind_ok in H. destruct H as (m' & _ & H). rewrite blen_cons. destruct (N.land b 128 =? 0).
  - inversion H; subst. split; [|lia]. unfold u32_add in Hv. destruct (v + t <? two32) eqn:E; [inversion Hv; lia|].
    destruct p; [discriminate|]. inversion Hv. apply N.mod_lt. discriminate.
  - apply IH in H. lia.
Qed.
Lemma u16_left bs n r : u16_dec bs = Ok (n, r) -> blen r <= blen bs.
Proof. unfold u16_dec. destruct bs as [|a [|b bs]]; intros H; try discriminate; inversion H; subst; rewrite !blen_cons; lia. Qed.
Lemma props_left {A} p short (step : A -> property -> option A) d bs a r : props_dec p short step d bs = Ok (a, r) -> blen r <= blen bs.
Proof.
  unfold props_dec. intros H. apply bind_ok in H. destruct H as ([n r1] & H1 & H). apply vbi_loop_left in H1. destruct (n =? 0); [inversion H; subst; lia|].
  destruct (blen r1 <? n) eqn:E; [discriminate|]. apply bind_ok in H. destruct H as (x & _ & H). inversion H; subst. rewrite blen_bdrop. lia.
Qed.
Lemma announced {A} (dec : bytes -> res (A * bytes)) m (R : bytes) r2 fuel l r3 : m < two32 -> blen r2 <= blen R -> blen R < m ->
  payload_loop dec fuel (two64 + blen R - m) r2 = Ok (l, r3) -> l = [].
Proof. intros H1 H2 H3. apply payload_none. unfold two32, two64 in *. lia. Qed.

Lemma ag_bind_ok {A B} (P : B -> Prop) (d r : res A) f g : ag no d r -> (forall a, r = Ok a -> ag P (f a) (g a)) -> ag P (bind d f) (bind r g).
Proof.
  intros [->|[-> Hn]] H; [destruct r; cbn [bind]; [apply H; reflexivity|left; reflexivity|left; reflexivity]|].
  right. split; [reflexivity|]. destruct r as [a| |]; [destruct (Hn a eq_refl)|discriminate|discriminate].
Qed.
Ltac with_props mk :=
  apply ag_bind; [apply ag_refl|]; intros r; apply ag_bind_ok; [apply vbi_ag|]; intros [m R] Em; apply vbi_loop_left in Em;
  apply ag_bind_ok; [apply ag_refl|]; intros [pid r2] E2; apply u16_left in E2; apply ag_bind_ok; [apply props_ag|]; intros [a r3] E3; apply props_left in E3;
  destruct (blen r3 =? 0); [apply ag_refl|]; apply usize_ag; intros Hm; [apply ag_refl|];
  intros [k r0] H; apply bind_ok in H; destruct H as ([l r4] & Hl & H); inversion H; subst; cbn [fst mk]; apply announced in Hl; [exact Hl|tauto|lia|exact Hm].
Lemma subscribe_ag bs : ag (fun kr => sb_payload (fst kr) = []) (subscribe_dec Debug bs) (subscribe_dec Release bs).
Proof. unfold subscribe_dec. with_props sb_payload. Qed.
Lemma suback_ag bs : ag (fun kr => sa_payload (fst kr) = []) (suback_dec Debug bs) (suback_dec Release bs).
Proof. unfold suback_dec. with_props sa_payload. Qed.
Lemma unsubscribe_ag bs : ag (fun kr => us_payload (fst kr) = []) (unsubscribe_dec Debug bs) (unsubscribe_dec Release bs).
Proof. unfold unsubscribe_dec. with_props us_payload. Qed.
Lemma unsuback_ag bs : ag (fun kr => ua_payload (fst kr) = []) (unsuback_dec Debug bs) (unsuback_dec Release bs).
Proof. unfold unsuback_dec. with_props ua_payload. Qed.
Lemma suback3_ag bs : ag (fun kr => sa_payload (fst kr) = []) (suback_dec_v3 Debug bs) (suback_dec_v3 Release bs).
Proof.
  unfold suback_dec_v3. apply ag_bind; [apply ag_refl|]. intros r. apply ag_bind_ok; [apply vbi_ag|]. intros [m R] Em. apply vbi_loop_left in Em.
  apply ag_bind_ok; [apply ag_refl|]. intros [pid r2] E2. apply u16_left in E2. apply usize_ag; intros Hm; [apply ag_refl|].
  intros [k r0] H. apply bind_ok in H. destruct H as ([l r4] & Hl & H). inversion H; subst. cbn [fst sa_payload]. apply announced in Hl; [exact Hl|tauto|lia|exact Hm].
Qed.
(** PUBLISH: a payload length that has wrapped around is longer than the buffer. *)
Lemma publish_ag_any bs : ag (fun _ => True) (publish_dec Debug bs) (publish_dec Release bs).
Proof.
  unfold publish_dec. apply ag_bind; [apply ag_refl|]. intros [h r]. apply ag_bind; [apply vbi_ag|]. intros [m R]. apply ag_bind; [apply ag_refl|]. intros [t r2].
  apply ag_bind; [apply ag_refl|]. intros [pid r3]. apply ag_bind; [apply props_ag|]. intros [a r4]. apply ag_bind; [apply ag_refl|]. intros psz.
  apply ag_bind; [apply ag_refl|]. intros vsz. apply usize_ag; [intros _; apply ag_refl|auto].
Qed.
Lemma publish_ag bs : is_bytes bs -> blen bs < two64 -> ag no (publish_dec Debug bs) (publish_dec Release bs).
Proof.
  intros Hb Hlen. unfold publish_dec. apply ag_bind_ok; [apply ag_refl|]. intros [h r] H0. destruct bs as [|h' bs]; [discriminate|]. cbn in H0. inversion H0; subst h' r. clear H0.
  inv Hb. rename H2 into Hb. rewrite blen_cons in Hlen.
  apply ag_bind_ok; [apply vbi_ag|]. intros [m r1] H1'. destruct (vbi_gets Release _ _ _ Hb H1') as (n & -> & Hr1 & Hn). clear Hb H1'.
  apply ag_bind_ok; [apply ag_refl|]. intros [topic r2] H1'. destruct (str_gets _ _ _ Hr1 H1') as (xt & -> & Hr2 & Ht). clear Hr1 H1'.
  apply ag_bind_ok; [apply ag_refl|]. intros [pid r3] H1'.
  assert (Hpid : exists xi, r2 = xi ++ r3 /\ is_bytes r3 /\ blen xi = pid_size pid).
  { destruct (qos_from (N.land h 6 / 2)); [| | |discriminate].
    - inv H1'. exists []. repeat split; auto.
    - apply bind_ok in H1'. destruct H1' as ([i ri] & Hi & H1'). inv H1'. destruct (u16_gets _ _ _ Hr2 Hi) as (xi & -> & Hr3 & Hx). exists xi. split; [reflexivity|].
      split; [exact Hr3|]. destruct Hx as (? & ? & -> & _). reflexivity.
    - apply bind_ok in H1'. destruct H1' as ([i ri] & Hi & H1'). inv H1'. destruct (u16_gets _ _ _ Hr2 Hi) as (xi & -> & Hr3 & Hx). exists xi. split; [reflexivity|].
      split; [exact Hr3|]. destruct Hx as (? & ? & -> & _). reflexivity. }
  destruct Hpid as (xi & -> & Hr3 & Hil). clear Hr2 H1'.
  apply ag_bind_ok; [apply props_ag|]. intros [a r4] H1'. destruct (publish_props_gets _ _ _ _ Hr3 H1') as (xp & xp' & -> & Hr4 & Hps & Hps' & Hle & psz & vsz & E1 & E2 & E3).
  clear Hr3 H1'. rewrite E1. cbn [bind]. rewrite E2. cbn [bind]. apply usize_ag; [intros _; apply ag_refl|]. intros Hm x Hx.
  assert (Hxt : blen xt = str_size topic) by (apply string_iff in Ht; destruct Ht as [_ ->]; apply blen_str_enc).
  rewrite !blen_app in Hlen. destruct (blen r4 <? _) eqn:El in Hx; [discriminate|]. lia.
Qed.

Definition without_entries (k : packet) : Prop :=
  match k with
  | Subscribe s => sb_payload s = [] | SubAck s => sa_payload s = [] | Unsubscribe s => us_payload s = [] | UnsubAck s => ua_payload s = []
  | _ => False
  end.
Lemma lift_packet_ag {A} (f : A -> packet) (P : A * bytes -> Prop) (Q : packet * bytes -> Prop) d r : (forall a b, P (a, b) -> Q (f a, b)) -> ag P d r -> ag Q (lift_packet f d) (lift_packet f r).
Proof.
  intros H [->|[-> Hp]]; [apply ag_refl|]. right. split; [reflexivity|]. intros [k b] E. unfold lift_packet in E. apply bind_ok in E.
  destruct E as ([a b'] & -> & E). inv E. apply H, Hp. reflexivity.
Qed.
Lemma parse_ag v bs : ag (fun kr => match fst kr with Publish _ => True | k => without_entries k end) (parse_with_version Debug v bs) (parse_with_version Release v bs).
Proof.
  unfold parse_with_version. destruct bs as [|h t]; [apply ag_refl|]. set (bs := h :: t). clearbody bs.
  destruct (h / 16) as [|q]; [apply ag_refl|].
  repeat (destruct q as [q|q|]; try apply ag_refl); try destruct (supports_properties v);
    first [refine (lift_packet_ag _ _ _ _ _ _ (connect_ag bs)) | refine (lift_packet_ag _ _ _ _ _ _ (connack_ag bs)) | refine (lift_packet_ag _ _ _ _ _ _ (connack3_ag bs))
      | refine (lift_packet_ag _ _ _ _ _ _ (publish_ag_any bs)) | refine (lift_packet_ag _ _ _ _ _ _ (ack_ag bs)) | refine (lift_packet_ag _ _ _ _ _ _ (subscribe_ag bs))
      | refine (lift_packet_ag _ _ _ _ _ _ (suback_ag bs)) | refine (lift_packet_ag _ _ _ _ _ _ (suback3_ag bs)) | refine (lift_packet_ag _ _ _ _ _ _ (unsubscribe_ag bs))
      | refine (lift_packet_ag _ _ _ _ _ _ (unsuback_ag bs)) | refine (lift_packet_ag _ _ _ _ _ _ (unsuback3_ag bs)) | refine (lift_packet_ag _ _ _ _ _ _ (disconnect_ag bs))
      | refine (lift_packet_ag _ _ _ _ _ _ (auth_ag bs))]; intros a b; cbn; auto; intros [].
Qed.
