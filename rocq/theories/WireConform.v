(** The encoders write, and the decoders read, the format of SpecWire. *)
From Verif Require Import Base Utf8 Codec SpecCodec Property SpecProperty PacketProps Packets SpecPackets
  Tac CodecFacts PropertyFacts PacketPropsFacts PacketsFacts PacketsRoundtrip SpecWire.

(** ** Fields *)

Lemma int2_iff bs n : int2 bs n <-> n < 65536 /\ bs = u16_enc n.
Proof.
  unfold int2, u16_enc. split.
  - intros (a & b & -> & Ha & Hb & ->). split; [lia|]. f_equal; [|f_equal]; lia.
  - intros [Hn ->]. exists (n / 256), (n mod 256). repeat split; lia.
Qed.

Lemma int4_iff bs n : int4 bs n <-> n < two32 /\ bs = u32_enc n.
Proof.
  unfold int4, u32_enc, two32. split.
  - intros (a & b & c & d & -> & Ha & Hb & Hc & Hd & ->). split; [lia|].
    f_equal; [|f_equal; [|f_equal; [|f_equal]]]; lia.
  - intros [Hn ->]. exists (n / 16777216), ((n / 65536) mod 256), ((n / 256) mod 256), (n mod 256).
    repeat split; lia.
Qed.

Lemma denotes_unique a : forall b n, vbi_denotes a n -> vbi_denotes b n -> blen a = blen b -> a = b.
Proof.
  induction a as [|x a IH]; intros b n Ha Hb Hl; [inv Ha|].
  inv Ha; inv Hb; rewrite ?blen_cons, ?blen_nil in Hl.
  - reflexivity.
  - match goal with H : vbi_denotes _ _ |- _ => inv H; rewrite ?blen_cons in Hl; lia end.
  - match goal with H : vbi_denotes _ _ |- _ => inv H; rewrite ?blen_cons in Hl; lia end.
  - match goal with |- ?x :: _ = ?y :: _ => assert (x = y) as -> by lia end. f_equal.
    match goal with H1 : vbi_denotes a ?n0, H2 : vbi_denotes _ ?n1 |- _ = _ =>
      assert (n0 = n1) as -> by lia; apply (IH _ n1); [assumption|assumption|lia] end.
Qed.

Lemma denotes_max bs n : vbi_denotes bs n -> blen bs <= 4 -> n <= vbi_max.
Proof.
  intros H Hl. apply vbi_denotes_bound in H.
  assert (128 ^ blen bs <= 128 ^ 4) by (apply N.pow_le_mono_r; lia).
  change (128 ^ 4) with 268435456 in *. unfold vbi_max. lia.
Qed.

Lemma varint_iff bs n : varint bs n <-> n <= vbi_max /\ bs = vbi_enc n.
Proof.
  split.
  - intros (Hd & Hl & Hm). pose proof (denotes_max _ _ Hd Hl) as Hn. split; [exact Hn|].
    apply (denotes_unique _ _ n Hd (vbi_enc_denotes _ Hn)).
    pose proof (Hm _ (vbi_enc_denotes _ Hn)). pose proof (vbi_enc_minimal _ _ Hn Hd). lia.
  - intros [Hn ->]. split; [apply vbi_enc_denotes, Hn|]. split; [apply vbi_enc_len, Hn|].
    intros bs' H. apply vbi_enc_minimal; assumption.
Qed.

Lemma string_iff bs s : string_field bs s <-> wf_str s /\ bs = str_enc s.
Proof.
  unfold string_field, wf_str, str_enc, two16. split.
  - intros (l & -> & Hl & Hu). apply int2_iff in Hl. destruct Hl as [Hl ->].
    split; [split; [exact Hu|lia]|]. rewrite N.mod_small by lia. reflexivity.
  - intros [[Hu Hl] ->]. rewrite N.mod_small by lia. eexists. split; [reflexivity|].
    split; [|exact Hu]. apply int2_iff. split; [lia|reflexivity].
Qed.

Lemma data_iff bs s : data_field bs s <-> wf_bin s /\ bs = bin_enc s.
Proof.
  unfold data_field, wf_bin, bin_enc, two16. split.
  - intros (l & -> & Hl & Hu). apply int2_iff in Hl. destruct Hl as [Hl ->].
    split; [split; [exact Hu|lia]|]. rewrite N.mod_small by lia. reflexivity.
  - intros [[Hu Hl] ->]. rewrite N.mod_small by lia. eexists. split; [reflexivity|].
    split; [|exact Hu]. apply int2_iff. split; [lia|reflexivity].
Qed.

(** ** Properties *)

Lemma identifier_eq q : identifier q = prop_id q.
Proof. destruct q; reflexivity. Qed.

Lemma value_iff q bs : value_field q bs <-> wf_prop q /\ bs = prop_val_enc q.
Proof.
  destruct q; cbn [value_field wf_prop prop_val_enc];
    try apply int2_iff; try apply int4_iff; try apply string_iff; try apply data_iff; try apply varint_iff;
    try (unfold int1, u8_enc; tauto);
    try (unfold flag_field, bool_enc; destruct v; cbn [b2n]; tauto).
  split.
  - intros (a & b & -> & Ha & Hb). apply string_iff in Ha, Hb. destruct Ha as [Ha ->], Hb as [Hb ->]. auto.
  - intros [[Ha Hb] ->]. exists (str_enc key), (str_enc value). repeat split; apply string_iff; auto.
Qed.

Lemma properties_iff l : forall bs, properties_field l bs <-> Forall wf_prop l /\ bs = props_enc l.
Proof.
  induction l as [|q l IH]; intros bs; split.
  - intros H. inv H. split; [constructor|reflexivity].
  - intros [_ ->]. constructor.
  - intros H. inv H. apply varint_iff in H2. destruct H2 as [_ ->]. apply value_iff in H3.
    destruct H3 as [Hq ->]. apply IH in H5. destruct H5 as [Hl ->].
    split; [constructor; assumption|]. unfold props_enc. cbn [flat_map]. unfold prop_enc at 2.
    rewrite identifier_eq, <- app_assoc. reflexivity.
  - intros [H ->]. inv H. unfold props_enc. cbn [flat_map]. unfold prop_enc at 1. rewrite <- app_assoc.
    constructor.
    + apply varint_iff. rewrite identifier_eq. split; [|reflexivity].
      pose proof (prop_id_small q). unfold vbi_max. lia.
    + apply value_iff. auto.
    + apply IH. auto.
Qed.

Lemma section_iff l bs : section l bs <->
  Forall wf_prop l /\ blen (props_enc l) <= vbi_max /\ bs = vbi_enc (blen (props_enc l)) ++ props_enc l.
Proof.
  unfold section. split.
  - intros (n & body & -> & Hn & Hp). apply properties_iff in Hp. destruct Hp as [Hw ->].
    apply varint_iff in Hn. destruct Hn as [Hm ->]. auto.
  - intros (Hw & Hm & ->). do 2 eexists. split; [reflexivity|]. split; [apply varint_iff; auto|].
    apply properties_iff. auto.
Qed.

(** ** What the decoders' loops make of a list of properties *)

Lemma the_snoc {A} (f : property -> option A) l q :
  the f (l ++ [q]) = match f q with Some a => Some a | None => the f l end.
Proof.
  induction l as [|x l IH]; cbn; [destruct (f q); reflexivity|].
  rewrite IH. destruct (f q); [reflexivity|]. reflexivity.
Qed.
Lemma users_snoc l q :
  users (l ++ [q]) = match q with PUserProperty k v => push_user (users l) k v | _ => users l end.
Proof.
  unfold users. rewrite flat_map_app. cbn [flat_map].
  destruct q; try (rewrite !app_nil_r; reflexivity).
  destruct (flat_map _ l); reflexivity.
Qed.

Definition folds {A} (step : A -> property -> option A) (d : A) (has : property -> Prop) (says : list property -> A) : Prop :=
  says [] = d /\ forall l q, has q -> not_rri q -> step (says l) q = Some (says (l ++ [q])).

Lemma folds_fold {A} (step : A -> property -> option A) d has says l :
  folds step d has says -> Forall has l -> Forall not_rri l -> foldo step d l = Some (says l).
Proof.
  intros [H0 H] Hl Hn. induction l as [|q l IH] using rev_ind; [cbn; congruence|].
  apply Forall_app in Hl, Hn. destruct Hl as [Hl Hq], Hn as [Hn Hq']. inv Hq. inv Hq'.
  rewrite foldo_app, IH by assumption. cbn [foldo]. rewrite H by assumption. reflexivity.
Qed.

Lemma the_snoc_some {A} (f : property -> option A) l q a : f q = Some a -> Some a = the f (l ++ [q]).
Proof. intros H. rewrite the_snoc, H. reflexivity. Qed.
Lemma the_snoc_none {A} (f : property -> option A) l q : f q = None -> the f l = the f (l ++ [q]).
Proof. intros H. rewrite the_snoc, H. reflexivity. Qed.
Lemma users_snoc_none l q : is_user q = false -> users l = users (l ++ [q]).
Proof. intros H. rewrite users_snoc. destruct q; try reflexivity. discriminate. Qed.
Lemma not_listed x L : existsb (N.eqb x) L = false -> ~ In x L.
Proof.
  intros H Hi. assert (existsb (N.eqb x) L = true) by (apply existsb_exists; exists x; split; [exact Hi|lia]). congruence.
Qed.

Lemma connect_eq a0 a1 a2 a3 a4 a5 a6 a7 a8 b0 b1 b2 b3 b4 b5 b6 b7 b8 : a0 = b0 -> a1 = b1 -> a2 = b2 -> a3 = b3 -> a4 = b4 -> a5 = b5 -> a6 = b6 -> a7 = b7 -> a8 = b8 ->
  Mk_connect_props a0 a1 a2 a3 a4 a5 a6 a7 a8 = Mk_connect_props b0 b1 b2 b3 b4 b5 b6 b7 b8.
Proof. intros. subst. reflexivity. Qed.
Lemma will_eq a0 a1 a2 a3 a4 a5 a6 b0 b1 b2 b3 b4 b5 b6 : a0 = b0 -> a1 = b1 -> a2 = b2 -> a3 = b3 -> a4 = b4 -> a5 = b5 -> a6 = b6 ->
  Mk_will_props a0 a1 a2 a3 a4 a5 a6 = Mk_will_props b0 b1 b2 b3 b4 b5 b6.
Proof. intros. subst. reflexivity. Qed.
Lemma connack_eq a0 a1 a2 a3 a4 a5 a6 a7 a8 a9 a10 a11 a12 a13 a14 a15 a16 b0 b1 b2 b3 b4 b5 b6 b7 b8 b9 b10 b11 b12 b13 b14 b15 b16 : a0 = b0 -> a1 = b1 -> a2 = b2 -> a3 = b3 -> a4 = b4 -> a5 = b5 -> a6 = b6 -> a7 = b7 -> a8 = b8 -> a9 = b9 -> a10 = b10 -> a11 = b11 -> a12 = b12 -> a13 = b13 -> a14 = b14 -> a15 = b15 -> a16 = b16 ->
  Mk_connack_props a0 a1 a2 a3 a4 a5 a6 a7 a8 a9 a10 a11 a12 a13 a14 a15 a16 = Mk_connack_props b0 b1 b2 b3 b4 b5 b6 b7 b8 b9 b10 b11 b12 b13 b14 b15 b16.
Proof. intros. subst. reflexivity. Qed.
Lemma publish_eq a0 a1 a2 a3 a4 a5 a6 a7 b0 b1 b2 b3 b4 b5 b6 b7 : a0 = b0 -> a1 = b1 -> a2 = b2 -> a3 = b3 -> a4 = b4 -> a5 = b5 -> a6 = b6 -> a7 = b7 ->
  Mk_publish_props a0 a1 a2 a3 a4 a5 a6 a7 = Mk_publish_props b0 b1 b2 b3 b4 b5 b6 b7.
Proof. intros. subst. reflexivity. Qed.
Ltac fields := first [apply connack_eq | apply connect_eq | apply publish_eq | apply will_eq | f_equal].

#[local] Opaque the users app.
Ltac folds_tac :=
  split; [reflexivity|]; intros l q Hh Hr; destruct q;
  first [ contradiction Hr
        | exfalso; revert Hh; apply not_listed; reflexivity
        | cbv beta iota delta [connect_props_step will_props_step connack_props_step publish_props_step ack_props_step
            subscribe_props_step unsubscribe_props_step disconnect_props_step auth_props_step
            connect_says will_says connack_says publish_says ack_says subscribe_says unsubscribe_says disconnect_says auth_says
            cp_session_expiry_interval cp_receive_maximum cp_maximum_packet_size cp_topic_alias_maximum
            cp_request_response_information cp_request_problem_information cp_user_property cp_authentication_method
            cp_authentication_data wp_will_delay_interval wp_payload_format_indicator wp_message_expiry_interval
            wp_content_type wp_response_topic wp_correlation_data wp_user_property
            cap_session_expiry_interval cap_receive_maximum cap_maximum_qos cap_retain_available cap_maximum_packet_size
            cap_assigned_client_id cap_topic_alias_max cap_reason_string cap_user_property
            cap_wildcard_subscription_available cap_subscription_identifier_available cap_shared_subscription_available
            cap_server_keepalive cap_response_information cap_server_reference cap_authentication_method cap_authentication_data
            pp_payload_format_indicator pp_message_expiry_interval pp_topic_alias pp_response_topic pp_correlation_data
            pp_user_property pp_subscription_identifier pp_content_type akp_reason_string akp_user_property
            sbp_subscription_id sbp_user_property usp_user_property dp_session_expiry_interval dp_reason_string
            dp_user_property dp_server_reference aup_auth_method aup_auth_data aup_reason_string aup_user_property];
          apply f_equal; fields;
          first [ reflexivity | apply the_snoc_none; reflexivity | apply the_snoc_some; reflexivity
                | apply users_snoc_none; reflexivity | symmetry; apply users_snoc ] ].

Lemma connect_folds : folds connect_props_step connect_props_default connect_has connect_says.
Proof. folds_tac. Qed.
Lemma will_folds : folds will_props_step will_props_default will_has will_says.
Proof. folds_tac. Qed.
Lemma connack_folds : folds connack_props_step connack_props_default connack_has connack_says.
Proof. folds_tac. Qed.
Lemma publish_folds : folds publish_props_step publish_props_default publish_has publish_says.
Proof. folds_tac. Qed.
Lemma ack_folds : folds ack_props_step ack_props_default ack_has ack_says.
Proof. folds_tac. Qed.
Lemma subscribe_folds : folds subscribe_props_step subscribe_props_default subscribe_has subscribe_says.
Proof. folds_tac. Qed.
Lemma unsubscribe_folds : folds unsubscribe_props_step unsubscribe_props_default unsubscribe_has unsubscribe_says.
Proof. folds_tac. Qed.
Lemma disconnect_folds : folds disconnect_props_step disconnect_props_default disconnect_has disconnect_says.
Proof. folds_tac. Qed.
Lemma auth_folds : folds auth_props_step auth_props_default auth_has auth_says.
Proof. folds_tac. Qed.

#[local] Transparent the users app.

Lemma section_read {A} p short (step : A -> property -> option A) d has says l bs r :
  folds step d has says -> section l bs -> Forall has l -> Forall not_rri l ->
  props_dec p short step d (bs ++ r) = Ok (says l, r).
Proof.
  intros Hf Hs Hl Hn. apply section_iff in Hs. destruct Hs as (Hw & Hm & ->). rewrite <- app_assoc.
  apply props_dec_enc; try assumption. eapply folds_fold; eassumption.
Qed.


Ltac no_rri_tac := intros q H; destruct q; try exact I; revert H; apply not_listed; reflexivity.
Lemma will_no_rri q : will_has q -> not_rri q.
Proof. revert q. no_rri_tac. Qed.
Lemma connack_no_rri q : connack_has q -> not_rri q.
Proof. revert q. no_rri_tac. Qed.
Lemma publish_no_rri q : publish_has q -> not_rri q.
Proof. revert q. no_rri_tac. Qed.
Lemma ack_no_rri q : ack_has q -> not_rri q.
Proof. revert q. no_rri_tac. Qed.
Lemma subscribe_no_rri q : subscribe_has q -> not_rri q.
Proof. revert q. no_rri_tac. Qed.
Lemma unsubscribe_no_rri q : unsubscribe_has q -> not_rri q.
Proof. revert q. no_rri_tac. Qed.
Lemma disconnect_no_rri q : disconnect_has q -> not_rri q.
Proof. revert q. no_rri_tac. Qed.
Lemma auth_no_rri q : auth_has q -> not_rri q.
Proof. revert q. no_rri_tac. Qed.
Lemma connect_no_rri l : cp_request_response_information (connect_says l) = None -> Forall not_rri l.
Proof.
  cbn [connect_says cp_request_response_information]. induction l as [|q l IH]; cbn [the]; intros H; constructor.
  - destruct (the _ l); [discriminate|]. destruct q; try exact I. discriminate.
  - apply IH. destruct (the _ l); [discriminate|reflexivity].
Qed.

Lemma props_read {A} p short (step : A -> property -> option A) d has says o bs :
  folds step d has says -> (forall q, has q -> not_rri q) -> props_part has says V5 o bs ->
  exists a, o = Some a /\ forall r, props_dec p short step d (bs ++ r) = Ok (a, r).
Proof.
  intros Hf Hn (l & Hs & Hl & _ & ->). eexists. split; [reflexivity|]. intros r.
  eapply section_read; try eassumption. eapply Forall_impl; [|exact Hl]. exact Hn.
Qed.
Lemma connect_props_read p short o bs :
  props_part connect_has connect_says V5 o bs -> owf (fun a => cp_request_response_information a = None) o ->
  exists a, o = Some a /\ forall r, props_dec p short connect_props_step connect_props_default (bs ++ r) = Ok (a, r).
Proof.
  intros (l & Hs & Hl & _ & ->) Hr. eexists. split; [reflexivity|]. intros r.
  eapply section_read; try eassumption; [apply connect_folds|]. apply connect_no_rri, Hr.
Qed.

(** ** The lists that the encoders write *)

Lemma the_app {A} (f : property -> option A) l l' :
  the f (l ++ l') = match the f l' with Some a => Some a | None => the f l end.
Proof. induction l as [|q l IH]; cbn; [destruct (the f l'); reflexivity|]. rewrite IH. destruct (the f l'); reflexivity. Qed.
Lemma the_olist_none {A B} (f : property -> option A) (P : B -> property) o :
  (forall v, f (P v) = None) -> the f (olist P o) = None.
Proof. intros H. destruct o; cbn; auto. Qed.
Lemma the_olist_some {A} (f : property -> option A) (P : A -> property) o :
  (forall v, f (P v) = Some v) -> the f (olist P o) = o.
Proof. intros H. destruct o; cbn; auto. Qed.
Lemma the_ulist {A} (f : property -> option A) o :
  (forall k v, f (PUserProperty k v) = None) -> the f (ulist o) = None.
Proof. intros H. destruct o as [u|]; [|reflexivity]. cbn. induction u as [|[k v] u IH]; cbn; [reflexivity|]. rewrite IH. apply H. Qed.
Definition pairs (l : list property) : user_props :=
  flat_map (fun q => match q with PUserProperty k v => [(k, v)] | _ => [] end) l.
Lemma users_pairs l : users l = match pairs l with [] => None | us => Some us end.
Proof. reflexivity. Qed.
Lemma pairs_app l l' : pairs (l ++ l') = pairs l ++ pairs l'.
Proof. apply flat_map_app. Qed.
Lemma pairs_olist {B} (P : B -> property) o : (forall v, is_user (P v) = false) -> pairs (olist P o) = [].
Proof. intros H. destruct o as [v|]; cbn; [|reflexivity]. specialize (H v). destruct (P v); cbn in *; congruence. Qed.
Lemma pairs_ulist o : pairs (ulist o) = match o with Some u => u | None => [] end.
Proof. destruct o as [u|]; [|reflexivity]. cbn. induction u as [|[k v] u IH]; cbn; [reflexivity|]. rewrite IH. reflexivity. Qed.
Lemma users_back (o : option user_props) : wf_user o ->
  match match o with Some u => u | None => [] end with [] => None | us => Some us end = o.
Proof. destruct o as [[|]|]; intros H; try reflexivity. exfalso. apply H. reflexivity. Qed.

Lemma the_skip {A} (f : property -> option A) l l' : the f l = None -> the f (l ++ l') = the f l'.
Proof. intros H. rewrite the_app, H. destruct (the f l'); reflexivity. Qed.
Lemma the_keep {A} (f : property -> option A) l l' : the f l' = None -> the f (l ++ l') = the f l.
Proof. intros H. rewrite the_app, H. reflexivity. Qed.
Lemma the_none_app {A} (f : property -> option A) l l' : the f l = None -> the f l' = None -> the f (l ++ l') = None.
Proof. intros H H'. rewrite the_app, H', H. reflexivity. Qed.
Lemma pairs_skip l l' : pairs l = [] -> pairs (l ++ l') = pairs l'.
Proof. intros H. rewrite pairs_app, H. reflexivity. Qed.
Lemma pairs_keep l l' : pairs l' = [] -> pairs (l ++ l') = pairs l.
Proof. intros H. rewrite pairs_app, H. apply app_nil_r. Qed.
Lemma pairs_none_app l l' : pairs l = [] -> pairs l' = [] -> pairs (l ++ l') = [].
Proof. intros H H'. rewrite pairs_app, H', H. reflexivity. Qed.

#[local] Opaque the pairs olist ulist app.
Ltac the_none := repeat (apply the_none_app; [first [apply the_olist_none; intros; reflexivity | apply the_ulist; intros; reflexivity]|]);
  first [apply the_olist_none; intros; reflexivity | apply the_ulist; intros; reflexivity].
Ltac the_here := first
  [ match goal with |- the ?f (olist ?P ?o ++ ?r) = _ =>
      rewrite (the_skip f (olist P o) r) by (apply the_olist_none; intros; reflexivity); the_here end
  | match goal with |- the ?f (ulist ?o ++ ?r) = _ =>
      rewrite (the_skip f (ulist o) r) by (apply the_ulist; intros; reflexivity); the_here end
  | match goal with |- the ?f (?l ++ ?r) = _ => rewrite (the_keep f l r) by the_none; apply the_olist_some; intros; reflexivity end
  | apply the_olist_some; intros; reflexivity ].
Ltac pairs_none := repeat (apply pairs_none_app; [apply pairs_olist; intros; reflexivity|]); apply pairs_olist; intros; reflexivity.
Ltac pairs_here := first [ apply pairs_ulist
  | rewrite pairs_keep by pairs_none; apply pairs_ulist
  | rewrite pairs_skip by (apply pairs_olist; intros; reflexivity); pairs_here ].
Ltac says_back a :=
  destruct a; intros H; cbv beta iota delta [connect_says will_says connack_says publish_says ack_says
     subscribe_says unsubscribe_says disconnect_says auth_says];
  fields; [ first [ the_here
    | rewrite users_pairs; etransitivity; [|apply users_back; exact H];
      match goal with |- match ?x with _ => _ end = match ?y with _ => _ end =>
        let E := fresh in assert (E : x = y) by pairs_here; rewrite E; reflexivity end ] .. ].

Lemma connect_says_list a : wf_user (cp_user_property a) -> connect_says (connect_props_list a) = a.
Proof. unfold connect_props_list. says_back a. Qed.
Lemma will_says_list a : wf_user (wp_user_property a) -> will_says (will_props_list a) = a.
Proof. unfold will_props_list. says_back a. Qed.
Lemma connack_says_list a : wf_user (cap_user_property a) -> connack_says (connack_props_list a) = a.
Proof. unfold connack_props_list. says_back a. Qed.
Lemma publish_says_list a : wf_user (pp_user_property a) -> publish_says (publish_props_list a) = a.
Proof. unfold publish_props_list. says_back a. Qed.
Lemma ack_says_list a : wf_user (akp_user_property a) -> ack_says (ack_props_list a) = a.
Proof. unfold ack_props_list. says_back a. Qed.
Lemma subscribe_says_list a : wf_user (sbp_user_property a) -> subscribe_says (subscribe_props_list a) = a.
Proof. unfold subscribe_props_list. says_back a. Qed.
Lemma unsubscribe_says_list a : wf_user (usp_user_property a) -> unsubscribe_says (unsubscribe_props_list a) = a.
Proof. unfold unsubscribe_props_list. says_back a. Qed.
#[local] Transparent the pairs olist ulist app.

(** Each property at most once. *)
Definition ids (l : list property) : list N := map identifier (filter (fun q => negb (is_user q)) l).
Definition listed (l : list property) (L : list N) : Prop := NoDup (ids l) /\ incl (ids l) L.
Lemma ids_app l l' : ids (l ++ l') = ids l ++ ids l'.
Proof. unfold ids. rewrite filter_app, map_app. reflexivity. Qed.
Lemma ids_ulist o : ids (ulist o) = [].
Proof. destruct o as [u|]; [|reflexivity]. cbn. induction u as [|[k v] u IH]; cbn; auto. Qed.
Lemma listed_nil : listed [] [].
Proof. split; [constructor|]. intros x []. Qed.
Lemma listed_ulist o l L : listed l L -> listed (ulist o ++ l) L.
Proof. unfold listed. rewrite ids_app, ids_ulist. exact (fun H => H). Qed.
Lemma listed_olist {A} (P : A -> property) o i l L :
  (forall v, identifier (P v) = i /\ is_user (P v) = false) -> listed l L ->
  existsb (N.eqb i) L = false -> listed (olist P o ++ l) (i :: L).
Proof.
  intros HP [Hn Hl] Hi. apply not_listed in Hi. unfold listed. rewrite ids_app. destruct o as [v|].
  - destruct (HP v) as [H1 H2]. unfold ids at 1 3, olist. cbn [filter]. rewrite H2. cbn [negb map app].
    rewrite H1. split.
    + constructor; [|exact Hn]. intros H. apply Hi, Hl, H.
    + intros x [->|H]; [left; reflexivity|right; apply Hl, H].
  - split; [exact Hn|]. intros x H. right. apply Hl, H.
Qed.
Lemma listed_end l L : listed (l ++ []) L -> once l.
Proof. rewrite app_nil_r. intros [H _]. exact H. Qed.
Ltac once_rec := first [ apply listed_nil | apply listed_ulist; once_rec
  | eapply listed_olist; [intros; split; cbn [identifier is_user]; reflexivity|once_rec|reflexivity] ].
Ltac once_tac := eapply listed_end; rewrite <- ?app_assoc; once_rec.
Lemma Forall_olist {A} (P : A -> property) (has : property -> Prop) o : (forall v, has (P v)) -> Forall has (olist P o).
Proof. intros H. destruct o; cbn; constructor; auto. Qed.
Lemma Forall_ulist (has : property -> Prop) o : (forall k v, has (PUserProperty k v)) -> Forall has (ulist o).
Proof. intros H. destruct o as [u|]; cbn; [|constructor]. induction u as [|[k v] u IH]; constructor; auto. Qed.
Lemma existsb_listed x L : existsb (N.eqb x) L = true -> In x L.
Proof. intros H. apply existsb_exists in H. destruct H as (y & Hy & E). apply N.eqb_eq in E. subst. exact Hy. Qed.
Ltac has_tac := repeat (apply Forall_app; split);
  (apply Forall_olist || apply Forall_ulist); intros; apply existsb_listed; reflexivity.

Definition writes {A} (has : property -> Prop) (says : list property -> A) (lst : A -> list property) (d : A) (wf : A -> Prop) : Prop :=
  says [] = d /\ forall a, wf a -> Forall wf_prop (lst a) /\ Forall has (lst a) /\ once (lst a) /\ says (lst a) = a.
Lemma connect_writes : writes connect_has connect_says connect_props_list connect_props_default wf_connect_props.
Proof. split; [reflexivity|]. intros a [H Hu]. split; [exact H|]. split; [|split; [|apply connect_says_list, Hu]]; unfold connect_props_list; [has_tac|once_tac]. Qed.
Lemma will_writes : writes will_has will_says will_props_list will_props_default wf_will_props.
Proof. split; [reflexivity|]. intros a [H Hu]. split; [exact H|]. split; [|split; [|apply will_says_list, Hu]]; unfold will_props_list; [has_tac|once_tac]. Qed.
Lemma connack_writes : writes connack_has connack_says connack_props_list connack_props_default wf_connack_props.
Proof. split; [reflexivity|]. intros a [H Hu]. split; [exact H|]. split; [|split; [|apply connack_says_list, Hu]]; unfold connack_props_list; [has_tac|once_tac]. Qed.
Lemma publish_writes : writes publish_has publish_says publish_props_list publish_props_default wf_publish_props.
Proof. split; [reflexivity|]. intros a [H Hu]. split; [exact H|]. split; [|split; [|apply publish_says_list, Hu]]; unfold publish_props_list; [has_tac|once_tac]. Qed.
Lemma ack_writes : writes ack_has ack_says ack_props_list ack_props_default wf_ack_props.
Proof. split; [reflexivity|]. intros a [H Hu]. split; [exact H|]. split; [|split; [|apply ack_says_list, Hu]]; unfold ack_props_list; [has_tac|once_tac]. Qed.
Lemma subscribe_writes : writes subscribe_has subscribe_says subscribe_props_list subscribe_props_default wf_subscribe_props.
Proof. split; [reflexivity|]. intros a [H Hu]. split; [exact H|]. split; [|split; [|apply subscribe_says_list, Hu]]; unfold subscribe_props_list; [has_tac|once_tac]. Qed.
Lemma unsubscribe_writes : writes unsubscribe_has unsubscribe_says unsubscribe_props_list unsubscribe_props_default wf_unsubscribe_props.
Proof. split; [reflexivity|]. intros a [H Hu]. split; [exact H|]. split; [|split; [|apply unsubscribe_says_list, Hu]]; unfold unsubscribe_props_list; [has_tac|once_tac]. Qed.

Lemma props_written {A} has says (lst : A -> list property) d wf o :
  writes has says lst d wf -> owf wf o -> blen (oenc lst o) <= vbi_max ->
  props_part has says V5 (some_or d o) (venc (blen (oenc lst o)) ++ oenc lst o).
Proof.
  intros [H0 H] Hw Hm. rewrite venc_small by exact Hm. destruct o as [a|]; cbn [owf oenc some_or] in *.
  - destruct (H a Hw) as (Hp & Hh & Ho & Hs). exists (lst a). split; [|split; [exact Hh|split; [exact Ho|congruence]]].
    apply section_iff. auto.
  - exists []. split; [|split; [constructor|split; [constructor|congruence]]].
    apply section_iff. split; [constructor|]. split; [exact Hm|reflexivity].
Qed.

(** ** C94: what is written *)

Lemma code_eq r : code r = get_code r.
Proof. destruct r; reflexivity. Qed.
Lemma code_canon r : code (canon_reason r) = get_code r.
Proof. destruct r; reflexivity. Qed.

Lemma frame_intro h bs body : framed h bs body -> blen bs <= max_frame -> frame h body bs.
Proof.
  intros Hf Hm. destruct (framed_small _ _ _ Hf Hm) as [Hb ->]. eexists. split; [reflexivity|].
  apply varint_iff. auto.
Qed.

Lemma connect_flags_conform f :
  (cf_will_flag f = true -> cf_will_qos f <> QInvalid) -> (cf_will_flag f = false -> cf_will_retain f = false) ->
  connect_flags_field (Mk_connect_flags (cf_user_name f) (cf_password f) (cf_will_retain f)
    (if cf_will_flag f then cf_will_qos f else AtMostOnce) (cf_will_flag f) (cf_clean_start f)) (connect_flags_byte f).
Proof.
  intros Hq Hr. destruct f as [u pw wr q w c]; cbn [cf_will_flag cf_will_qos cf_will_retain cf_user_name cf_password cf_clean_start] in *.
  unfold connect_flags_field, qos_bits. cbn [cf_will_flag cf_will_qos cf_will_retain cf_user_name cf_password cf_clean_start].
  destruct w.
  - specialize (Hq eq_refl). exists (qos_u8 q). split; [destruct q; cbn; auto; congruence|]. split; [|discriminate].
    destruct u, pw, wr, q, c; try congruence; reflexivity.
  - rewrite (Hr eq_refl). exists 0. split; [cbn; auto|]. split; [destruct u, pw, c; reflexivity|]. auto.
Qed.

Lemma optional_str flag o : present flag wf_str o ->
  optional flag string_field (if flag then o else None) (if flag then opt_enc str_enc o else []).
Proof.
  unfold optional, present. destruct flag; [|auto]. destruct o as [s|]; [|contradiction].
  intros H. exists s. split; [reflexivity|]. apply string_iff. auto.
Qed.
Lemma optional_bin flag o : present flag wf_bin o ->
  optional flag data_field (if flag then o else None) (if flag then opt_enc bin_enc o else []).
Proof.
  unfold optional, present. destruct flag; [|auto]. destruct o as [s|]; [|contradiction].
  intros H. exists s. split; [reflexivity|]. apply data_iff. auto.
Qed.

Lemma connect_payload_conform pl v f f' enc :
  connect_payload_enc pl v f = Ok enc -> blen enc <= vbi_max ->
  cf_will_flag f' = cf_will_flag f -> cf_user_name f' = cf_user_name f -> cf_password f' = cf_password f ->
  wf_str (cl_client_id pl) -> owf wf_will_props (cl_will_properties pl) ->
  present (cf_will_flag f) wf_str (cl_will_topic pl) -> present (cf_will_flag f) wf_bin (cl_will_payload pl) ->
  present (cf_user_name f) wf_str (cl_user_name pl) -> present (cf_password f) wf_bin (cl_password pl) ->
  connect_payload_field v f'
    (Mk_connect_payload (cl_client_id pl)
          (if cf_will_flag f && supports_properties v then some_or will_props_default (cl_will_properties pl) else None)
          (if cf_will_flag f then cl_will_topic pl else None)
          (if cf_will_flag f then cl_will_payload pl else None)
          (if cf_user_name f then cl_user_name pl else None)
          (if cf_password f then cl_password pl else None)) enc.
Proof.
  intros He Hm E1 E2 E3 Hc Hwp Hwt Hwd Hu Hpw. unfold connect_payload_field. rewrite E1, E2, E3.
  cbn [cl_client_id cl_will_properties cl_will_topic cl_will_payload cl_user_name cl_password].
  unfold connect_payload_enc in He.
  apply optional_str in Hwt, Hu. apply optional_bin in Hwd, Hpw.
  assert (Hid : string_field (str_enc (cl_client_id pl)) (cl_client_id pl)) by (apply string_iff; auto).
  destruct (cf_will_flag f) eqn:Ew; [destruct (supports_properties v) eqn:Ev|].
  - inv_bind He. inv_bind Ha. apply Ok_inj in Ha. subst a. apply Ok_inj in He. subst enc.
    apply (osize_ok _ will_props_list) in Ha0; [|apply will_props_size_list_eq]. subst a0.
    do 6 eexists. split; [reflexivity|].
    split; [exact Hid|]. split; [|split; [exact Hwt|split; [exact Hwd|split; [exact Hu|exact Hpw]]]].
    destruct v; try discriminate. cbn [andb]. apply (props_written _ _ _ _ _ _ will_writes); [exact Hwp|].
    rewrite !blen_app in Hm. lia.
  - cbn [bind app] in He. apply Ok_inj in He. subst enc.
    exists (str_enc (cl_client_id pl)), []. do 4 eexists. split; [reflexivity|].
    split; [exact Hid|]. split; [|split; [exact Hwt|split; [exact Hwd|split; [exact Hu|exact Hpw]]]].
    destruct v; try discriminate; split; reflexivity.
  - cbn [bind app] in He. apply Ok_inj in He. subst enc.
    exists (str_enc (cl_client_id pl)), [], [], []. do 2 eexists. split; [reflexivity|].
    split; [exact Hid|]. split; [split; reflexivity|]. split; [exact Hwt|split; [exact Hwd|split; [exact Hu|exact Hpw]]].
Qed.

Lemma connect_conform c bs :
  connect_enc c = Ok bs -> blen bs <= max_frame -> wf_connect c -> sendable (Connect c) ->
  wire (c_protocol_version c) (Connect (canon_connect c)) bs.
Proof.
  intros He Hm Hw Hs. apply connect_framed in He. destruct He as (psz & pl & Hf & Hpl & Hpsz).
  pose proof (framed_small _ _ _ Hf Hm) as [Hb _]. pose proof (frame_intro _ _ _ Hf Hm) as Hfr. clear Hf Hm.
  destruct Hw as (Hk & Hwq & Hpr & Hid & Hwp & Hwt & Hwd & Hu & Hpw). cbn [sendable] in Hs.
  cbn [wire]. split; [reflexivity|]. unfold connect_body in *.
  exists (str_enc (protocol_name (c_protocol_version c))), (connect_flags_byte (c_flags c)), (u16_enc (c_keepalive c)).
  do 2 eexists. split; [|split; [|split; [|split; [|split]]]].
  - replace (snd (protocol (c_protocol_version c))) with (protocol_level (c_protocol_version c))
      by (destruct (c_protocol_version c); reflexivity). exact Hfr.
  - apply string_iff. replace (fst (protocol (c_protocol_version c))) with (protocol_name (c_protocol_version c))
      by (destruct (c_protocol_version c); reflexivity). split; [apply protocol_name_wf|reflexivity].
  - apply connect_flags_conform; assumption.
  - apply int2_iff. auto.
  - unfold canon_connect. cbn [c_properties]. destruct (supports_properties (c_protocol_version c)) eqn:Ev.
    + rewrite Hpsz in * by reflexivity. destruct (c_protocol_version c); try discriminate.
      apply (props_written _ _ _ _ _ _ connect_writes); [exact Hpr|].
      cbn [supports_properties] in Hb. rewrite !blen_app in Hb. lia.
    + destruct (c_protocol_version c); try discriminate; split; reflexivity.
  - unfold canon_connect. cbn [c_flags c_payload]. eapply connect_payload_conform; try eassumption; try reflexivity.
    rewrite !blen_app in Hb. lia.
Qed.

Lemma connack_conform c bs :
  connack_enc c = Ok bs -> blen bs <= max_frame -> owf wf_connack_props (ca_properties c) ->
  wire (ca_protocol_version c) (canon (ConnAck c)) bs.
Proof.
  intros He Hm Hw. apply connack_framed in He. destruct He as (psz & Hf & ->).
  pose proof (framed_small _ _ _ Hf Hm) as [Hb _]. pose proof (frame_intro _ _ _ Hf Hm) as Hfr. clear Hf Hm.
  assert (Hfl : connack_flags_enc (ca_session_present c) = [bit (ca_session_present c)])
    by (destruct (ca_session_present c); reflexivity). rewrite Hfl in *.
  cbn [wire canon]. destruct (supports_properties (ca_protocol_version c)) eqn:Ev.
  - destruct (ca_protocol_version c); try discriminate. cbn [ca_protocol_version ca_session_present ca_reason_code ca_properties answer_version].
    split; [reflexivity|]. do 2 eexists. split; [exact Hfr|]. split; [cbn; rewrite code_canon; reflexivity|].
    apply (props_written _ _ _ _ _ _ connack_writes); [exact Hw|]. rewrite !blen_app in Hb. lia.
  - cbn [ca_protocol_version ca_session_present ca_reason_code ca_properties].
    split; [destruct (ca_protocol_version c); try discriminate; reflexivity|].
    do 2 eexists. split; [exact Hfr|]. split; [|destruct (ca_protocol_version c); try discriminate; split; reflexivity].
    destruct (ca_protocol_version c); try discriminate; destruct (ca_reason_code c); cbn; auto 10.
Qed.

Lemma publish_conform b bs :
  publish_enc b = Ok bs -> blen bs <= max_frame -> wf_publish b -> sendable (Publish b) ->
  wire V5 (canon (Publish b)) bs.
Proof.
  intros He Hm (Hq & Ht & Hid & Hpr) Hs. apply publish_framed in He. destruct He as (psz & Hf & ->).
  pose proof (framed_small _ _ _ Hf Hm) as [Hb _]. pose proof (frame_intro _ _ _ Hf Hm) as Hfr. clear Hf Hm.
  cbn [wire canon pb_dup pb_qos pb_retain pb_topic pb_packet_id pb_properties pb_payload sendable] in *.
  exists (qos_u8 (pb_qos b)), (str_enc (pb_topic b)), (opt_enc u16_enc (pb_packet_id b)). unfold publish_body in *.
  do 2 eexists. split; [|split; [|split; [|split; [|split; [|split]]]]].
  - rewrite app_assoc in Hfr. rewrite (app_assoc (venc _)) in Hfr. rewrite <- app_assoc in Hfr.
    replace (0x30 + 8 * bit (pb_dup b) + 2 * qos_u8 (pb_qos b) + bit (pb_retain b)) with (publish_header b); [exact Hfr|].
    unfold publish_header. destruct (pb_dup b), (pb_qos b), (pb_retain b); try congruence; reflexivity.
  - unfold qos_bits. destruct (pb_qos b); try congruence; cbn; auto.
  - apply string_iff. auto.
  - destruct (pb_qos b), (pb_packet_id b); try contradiction; try congruence; cbn [opt_enc]; auto;
      eexists; (split; [apply int2_iff; split; [exact Hid|reflexivity]|reflexivity]).
  - apply (props_written _ _ _ _ _ _ publish_writes); [exact Hpr|]. rewrite !blen_app in Hb. lia.
  - destruct (pb_payload b); reflexivity.
  - destruct (pb_payload b); [exact Hs|constructor].
Qed.

Lemma ack_conform h a bs :
  ack_enc h a = Ok bs -> blen bs <= max_frame -> wf_id (ak_packet_id a) -> owf wf_ack_props (ak_properties a) ->
  exists body, frame h body bs /\ ack_field V5 (canon_ack a) body.
Proof.
  intros He Hm Hid Hw. apply ack_framed in He. destruct He as (psz & Hf & ->).
  pose proof (framed_small _ _ _ Hf Hm) as [Hb _]. pose proof (frame_intro _ _ _ Hf Hm) as Hfr. clear Hf Hm.
  eexists. split; [exact Hfr|]. unfold ack_body in *.
  do 2 eexists. split; [reflexivity|]. unfold canon_ack.
  destruct (ak_properties a) as [o|] eqn:Eo.
  - cbn [is_some orb] in *. cbn [ak_packet_id ak_reason ak_properties].
    split; [apply int2_iff; auto|]. right. right. split; [reflexivity|]. eexists.
    split; [unfold reason_enc; cbn [app]; rewrite code_canon; reflexivity|].
    apply (props_written _ _ _ _ _ _ ack_writes); [exact Hw|]. rewrite !blen_app in Hb. lia.
  - cbn [is_some orb] in *. destruct (reason_eqb (ak_reason a) Success) eqn:Er; cbn [negb] in *.
    + destruct (ak_reason a) eqn:Er'; try discriminate. split; [apply int2_iff; auto|]. left. auto.
    + assert (Hc : match ak_reason a with Success => a | _ => Mk_ack_packet (ak_packet_id a) (canon_reason (ak_reason a)) (some_or ack_props_default None) end
                   = Mk_ack_packet (ak_packet_id a) (canon_reason (ak_reason a)) (some_or ack_props_default None))
        by (destruct (ak_reason a); try reflexivity; discriminate).
      rewrite Hc. cbn [ak_packet_id ak_reason ak_properties].
      split; [apply int2_iff; auto|]. right. right. split; [reflexivity|]. eexists.
      split; [unfold reason_enc; cbn [app]; rewrite code_canon; reflexivity|].
      apply (props_written _ _ _ _ _ _ ack_writes); [exact Hw|]. rewrite !blen_app in Hb. lia.
Qed.

Lemma many_vec {A B} (field : bytes -> B -> Prop) (enc : A -> bytes) (g : A -> B) l :
  Forall (fun a => field (enc a) (g a)) l -> many field (vec_enc enc l) (map g l).
Proof. induction 1; cbn; constructor; assumption. Qed.

Lemma options_conform o : wf_options o -> options_field V5 o (sub_options_byte o).
Proof.
  intros [Hq Hr]. destruct o as [q n a h]; cbn [so_qos so_retain_handling] in *. unfold options_field, qos_bits.
  exists (qos_u8 q), (rh_u8 h). cbn [so_qos so_no_local so_retain_as_pub so_retain_handling].
  split; [destruct q; cbn; auto; congruence|]. split; [destruct h; cbn; auto; congruence|].
  split; [destruct q, n, a, h; try congruence; reflexivity|congruence].
Qed.

Lemma subscribe_conform s bs :
  subscribe_enc s = Ok bs -> blen bs <= max_frame -> wf_packet (Subscribe s) -> wire V5 (canon (Subscribe s)) bs.
Proof.
  intros He Hm (Hid & Hpr & Hne & Hpl). apply subscribe_framed in He. destruct He as (psz & Hf & ->).
  pose proof (framed_small _ _ _ Hf Hm) as [Hb _]. pose proof (frame_intro _ _ _ Hf Hm) as Hfr. clear Hf Hm.
  cbn [wire canon sb_packet_id sb_properties sb_payload]. unfold subscribe_body in *.
  do 3 eexists. split; [rewrite (app_assoc (venc _)) in Hfr; exact Hfr|]. split; [apply int2_iff; auto|].
  split; [|split; [|exact Hne]].
  - apply (props_written _ _ _ _ _ _ subscribe_writes); [exact Hpr|]. rewrite !blen_app in Hb. lia.
  - rewrite <- (map_id (sb_payload s)) at 2. apply many_vec. eapply Forall_impl; [|exact Hpl].
    intros f [Hs Ho]. do 2 eexists. split; [reflexivity|]. split; [apply string_iff; auto|apply options_conform, Ho].
Qed.

Lemma unsubscribe_conform s bs :
  unsubscribe_enc s = Ok bs -> blen bs <= max_frame -> wf_packet (Unsubscribe s) -> wire V5 (canon (Unsubscribe s)) bs.
Proof.
  intros He Hm (Hid & Hpr & Hne & Hpl). apply unsubscribe_framed in He. destruct He as (psz & Hf & ->).
  pose proof (framed_small _ _ _ Hf Hm) as [Hb _]. pose proof (frame_intro _ _ _ Hf Hm) as Hfr. clear Hf Hm.
  cbn [wire canon us_packet_id us_properties us_payload]. unfold unsubscribe_body in *.
  do 3 eexists. split; [rewrite (app_assoc (venc _)) in Hfr; exact Hfr|]. split; [apply int2_iff; auto|].
  split; [|split; [|exact Hne]].
  - apply (props_written _ _ _ _ _ _ unsubscribe_writes); [exact Hpr|]. rewrite !blen_app in Hb. lia.
  - rewrite <- (map_id (us_payload s)) at 2. apply many_vec. eapply Forall_impl; [|exact Hpl].
    intros f Hs. apply string_iff; auto.
Qed.

Lemma suback_conform s bs :
  suback_enc s = Ok bs -> blen bs <= max_frame -> wf_packet (SubAck s) -> sendable (SubAck s) ->
  wire (sa_protocol_version s) (canon (SubAck s)) bs.
Proof.
  intros He Hm (Hid & Hpr & Hne) Hs. apply suback_framed in He. destruct He as (psz & Hf & ->).
  pose proof (framed_small _ _ _ Hf Hm) as [Hb _]. pose proof (frame_intro _ _ _ Hf Hm) as Hfr. clear Hf Hm.
  assert (Hne' : forall g, map g (sa_payload s) <> @nil reason) by (intros g; destruct (sa_payload s); cbn; congruence).
  cbn [wire canon sendable] in *. unfold suback_body in *.
  destruct (supports_properties (sa_protocol_version s)) eqn:Ev.
  - destruct (sa_protocol_version s) eqn:Es; try discriminate. cbn [sa_protocol_version sa_packet_id sa_properties sa_payload answer_version].
    split; [reflexivity|]. do 3 eexists. split; [exact Hfr|]. split; [apply int2_iff; auto|].
    split; [|split; [|apply Hne']].
    + apply (props_written _ _ _ _ _ _ ack_writes); [exact Hpr|]. rewrite !blen_app in Hb. lia.
    + apply many_vec. apply Forall_all. intros r. eexists. split; [reflexivity|]. cbn. symmetry. apply code_canon.
  - cbn [sa_protocol_version sa_packet_id sa_properties sa_payload].
    split; [destruct (sa_protocol_version s); try discriminate; reflexivity|].
    exists (u16_enc (sa_packet_id s)), [], (vec_enc reason_enc (sa_payload s)).
    split; [exact Hfr|]. split; [apply int2_iff; auto|].
    split; [destruct (sa_protocol_version s); try discriminate; split; reflexivity|]. split; [|apply Hne'].
    apply many_vec. assert (Hs' : Forall (fun r => In (code r) [0; 1; 2; 0x80]) (sa_payload s)).
    { apply Hs. intros E. rewrite E in Ev. discriminate. }
    eapply Forall_impl; [|exact Hs']. intros r Hr. eexists. split; [reflexivity|].
    destruct (sa_protocol_version s); try discriminate;
      (destruct r; try (exfalso; revert Hr; apply not_listed; reflexivity); cbn; auto 6).
Qed.

Lemma unsuback_conform s bs :
  unsuback_enc s = Ok bs -> blen bs <= max_frame -> wf_packet (UnsubAck s) ->
  wire (ua_protocol_version s) (canon (UnsubAck s)) bs.
Proof.
  intros He Hm (Hid & Hpr & Hne). apply unsuback_framed in He. destruct He as (psz & Hf & ->).
  pose proof (framed_small _ _ _ Hf Hm) as [Hb _]. pose proof (frame_intro _ _ _ Hf Hm) as Hfr. clear Hf Hm.
  cbn [wire canon] in *. unfold unsuback_body in *.
  destruct (supports_properties (ua_protocol_version s)) eqn:Ev.
  - destruct (ua_protocol_version s) eqn:Es; try discriminate. cbn [ua_protocol_version ua_packet_id ua_properties ua_payload answer_version].
    split; [reflexivity|]. do 3 eexists. split; [rewrite (app_assoc (venc _)) in Hfr; exact Hfr|]. split; [apply int2_iff; auto|].
    split; [|split].
    + apply (props_written _ _ _ _ _ _ ack_writes); [exact Hpr|]. rewrite !blen_app in Hb. lia.
    + apply many_vec. apply Forall_all. intros r. rewrite code_canon. reflexivity.
    + destruct (ua_payload s); cbn; congruence.
  - cbn [ua_protocol_version ua_packet_id ua_properties ua_payload].
    split; [destruct (ua_protocol_version s); try discriminate; reflexivity|].
    exists (u16_enc (ua_packet_id s)), [], [].
    split; [exact Hfr|]. split; [apply int2_iff; auto|].
    split; destruct (ua_protocol_version s); try discriminate; split; reflexivity.
Qed.

Lemma disconnect_conform d bs :
  disconnect_enc d = Ok bs -> blen bs <= max_frame -> sendable (Disconnect d) -> wire V5 (canon (Disconnect d)) bs.
Proof.
  intros He Hm Hs. apply disconnect_framed in He. pose proof (frame_intro _ _ _ He Hm) as Hfr.
  cbn [wire canon d_reason d_properties sendable] in *. eexists. split; [exact Hfr|]. right. left.
  split; [reflexivity|]. split; [|reflexivity]. unfold reason_enc. rewrite code_canon.
  destruct (d_properties d) as [a|]; [|reflexivity]. cbn [owf] in Hs. subst a. reflexivity.
Qed.

Lemma packet_conform k bs :
  packet_enc k = Ok bs -> blen bs <= max_frame -> wf_packet k -> sendable k -> wire (version_of k) (canon k) bs.
Proof.
  intros He Hm Hw Hs. destruct k; cbn [packet_enc version_of] in *.
  - apply connect_conform; assumption.
  - apply connack_conform; assumption.
  - apply publish_conform; assumption.
  - destruct Hw. eapply ack_conform in He; [|eassumption..]. exact He.
  - destruct Hw. eapply ack_conform in He; [|eassumption..]. exact He.
  - destruct Hw. eapply ack_conform in He; [|eassumption..]. exact He.
  - destruct Hw. eapply ack_conform in He; [|eassumption..]. exact He.
  - apply subscribe_conform; assumption.
  - apply suback_conform; assumption.
  - apply unsubscribe_conform; assumption.
  - apply unsuback_conform; assumption.
  - apply Ok_inj in He. subst. exists [0]. split; [reflexivity|]. apply varint_iff. split; [vm_compute; discriminate|reflexivity].
  - apply Ok_inj in He. subst. exists [0]. split; [reflexivity|]. apply varint_iff. split; [vm_compute; discriminate|reflexivity].
  - apply disconnect_conform; assumption.
  - contradiction.
Qed.

(** ** C95: what is read *)

Lemma frame_inv h body bs : frame h body bs -> blen body <= vbi_max /\ bs = h :: vbi_enc (blen body) ++ body.
Proof. intros (n & -> & Hn). apply varint_iff in Hn. destruct Hn as [Hb ->]. auto. Qed.

Lemma string_read bs s r : string_field bs s -> str_dec (bs ++ r) = Ok (s, r).
Proof. intros H. apply string_iff in H. destruct H as [H ->]. apply str_rt, H. Qed.
Lemma data_read bs s r : data_field bs s -> bin_dec (bs ++ r) = Ok (s, r).
Proof. intros H. apply data_iff in H. destruct H as [H ->]. apply bin_rt, H. Qed.
Lemma int2_read bs n r : int2 bs n -> u16_dec (bs ++ r) = Ok (n, r).
Proof. intros H. apply int2_iff in H. destruct H as [H ->]. apply u16_roundtrip, H. Qed.
Lemma code_read c r : reason_dec (code c :: r) = Ok (canon_reason c, r).
Proof. destruct c; reflexivity. Qed.
Lemma code_canon' c : code (canon_reason c) = code c.
Proof. destruct c; reflexivity. Qed.

Lemma optional_str_read flag o bs r : optional flag string_field o bs ->
  (if flag then do (u, r) <- str_dec (bs ++ r); Ok (Some u, r) else Ok (None, bs ++ r)) = Ok (o, r).
Proof.
  unfold optional. destruct flag.
  - intros (s & -> & H). rewrite (string_read _ _ _ H). reflexivity.
  - intros [-> ->]. reflexivity.
Qed.
Lemma optional_bin_read flag o bs r : optional flag data_field o bs ->
  (if flag then do (u, r) <- bin_dec (bs ++ r); Ok (Some u, r) else Ok (None, bs ++ r)) = Ok (o, r).
Proof.
  unfold optional. destruct flag.
  - intros (s & -> & H). rewrite (data_read _ _ _ H). reflexivity.
  - intros [-> ->]. reflexivity.
Qed.

Lemma connect_payload_read p v f pl bs r :
  connect_payload_field v f pl bs -> connect_payload_dec p v f (bs ++ r) = Ok (pl, r).
Proof.
  intros (id & wp & wt & wd & u & pw & -> & Hid & Hwp & Hwt & Hwd & Hu & Hpw).
  unfold connect_payload_dec. rewrite <- !app_assoc. rewrite (string_read _ _ _ Hid). cbn [bind].
  assert (Hw : (if cf_will_flag f then
       do (wp, r) <-
         (if supports_properties v then
            do (a, r) <- props_dec p PacketIncomplete will_props_step will_props_default (wp ++ wt ++ wd ++ u ++ pw ++ r);
            Ok (Some a, r)
          else Ok (None, wp ++ wt ++ wd ++ u ++ pw ++ r));
       do (wt, r) <- str_dec r;
       do (wd, r) <- bin_dec r;
       Ok ((wp, Some wt, Some wd), r)
     else Ok ((None, None, None), wp ++ wt ++ wd ++ u ++ pw ++ r))
     = Ok ((cl_will_properties pl, cl_will_topic pl, cl_will_payload pl), u ++ pw ++ r)).
  { destruct (cf_will_flag f); cbn [optional] in *.
    - destruct Hwt as (t & -> & Hwt), Hwd as (d & -> & Hwd).
      assert (Hp : forall r0, (if supports_properties v then
            do (a, r) <- props_dec p PacketIncomplete will_props_step will_props_default (wp ++ r0); Ok (Some a, r)
          else Ok (None, wp ++ r0)) = Ok (cl_will_properties pl, r0)).
      { intros r0. destruct v; cbn [supports_properties].
        - destruct Hwp as [-> ->]. reflexivity.
        - destruct Hwp as [-> ->]. reflexivity.
        - destruct (props_read p PacketIncomplete _ _ _ _ _ _ will_folds will_no_rri Hwp) as (a & -> & Hr).
          rewrite Hr. reflexivity. }
      rewrite Hp. cbn [bind]. rewrite (string_read _ _ _ Hwt). cbn [bind]. rewrite (data_read _ _ _ Hwd). reflexivity.
    - destruct Hwp as [-> ->], Hwt as [-> ->], Hwd as [-> ->]. reflexivity. }
  rewrite Hw. cbn [bind]. rewrite (optional_str_read _ _ _ _ Hu). cbn [bind].
  rewrite (optional_bin_read _ _ _ _ Hpw). cbn [bind]. destruct pl; reflexivity.
Qed.

Lemma connect_flags_read f n : connect_flags_field f n -> connect_flags_of_byte n = Ok f.
Proof.
  intros (q & Hq & -> & Hw). destruct f as [u pw wr wq w c]; cbn [cf_will_flag cf_will_qos cf_will_retain cf_user_name cf_password cf_clean_start] in *.
  unfold qos_bits in Hq. cbn in Hq.
  destruct w.
  - destruct Hq as [E|[E|[E|[]]]]; inv E; destruct u, pw, wr, c; reflexivity.
  - destruct (Hw eq_refl) as [-> ->]. destruct Hq as [E|[E|[E|[]]]]; inv E. destruct u, pw, c; reflexivity.
Qed.



Lemma connect_read p v c bs r : wire v (Connect c) bs -> no_rri c -> connect_dec p (bs ++ r) = Ok (c, r).
Proof.
  intros (Ev & name & flags & ka & ps & pl & Hf & Hn & Hfl & Hka & Hps & Hpl) Hr.
  apply frame_inv in Hf. destruct Hf as [Hb ->]. unfold connect_dec. cbn [app advance1 bind].
  rewrite <- app_assoc, vbi_roundtrip by exact Hb. cbn [bind]. rewrite <- !app_assoc.
  rewrite (string_read _ _ _ Hn). cbn [bind app u8_dec].
  assert (Hv : from_name_and_level (fst (protocol v)) (snd (protocol v)) = Some v) by (destruct v; reflexivity).
  rewrite Hv. unfold connect_flags_dec. rewrite (connect_flags_read _ _ Hfl). cbn [bind].
  rewrite <- !app_assoc, (int2_read _ _ _ Hka). cbn [bind].
  assert (Hp : forall r0, (if supports_properties v then
           do (a, r) <- props_dec p (EReason MalformedPacket) connect_props_step connect_props_default (ps ++ r0);
           Ok (Some a, r)
         else Ok (None, ps ++ r0)) = Ok (c_properties c, r0)).
  { intros r0. destruct v; cbn [supports_properties].
    - destruct Hps as [-> ->]. reflexivity.
    - destruct Hps as [-> ->]. reflexivity.
    - destruct (connect_props_read p (EReason MalformedPacket) _ _ Hps Hr) as (a & -> & Hd). rewrite Hd. reflexivity. }
  rewrite Hp. cbn [bind]. rewrite (connect_payload_read _ _ _ _ _ _ Hpl). cbn [bind]. subst v. destruct c; reflexivity.
Qed.

Lemma connack_read p v c bs r : wire v (ConnAck c) bs -> exists c',
  lift_packet ConnAck (if supports_properties v then connack_dec p (bs ++ r) else connack_dec_v3 p (bs ++ r)) = Ok (ConnAck c', r)
  /\ same_code (ConnAck c) (ConnAck c').
Proof.
  intros (Ev & n & ps & Hf & Hc & Hps). apply frame_inv in Hf. destruct Hf as [Hb ->].
  assert (Hfl : connack_flags_dec ([bit (ca_session_present c)] ++ [n] ++ ps ++ r) = Ok (ca_session_present c, [n] ++ ps ++ r))
    by (destruct (ca_session_present c); reflexivity).
  destruct (supports_properties v) eqn:Es.
  - destruct v; try discriminate. cbn in Hc. subst n. unfold connack_dec. cbn [app advance1 bind].
    rewrite <- app_assoc, vbi_roundtrip by exact Hb. cbn [bind app] in *. rewrite Hfl. cbn [bind app].
    rewrite code_read. cbn [bind].
    destruct (props_read p PacketIncomplete _ _ _ _ _ _ connack_folds connack_no_rri Hps) as (a & Ea & Hr). rewrite Hr. cbn [bind lift_packet].
    eexists. split; [reflexivity|]. cbn [same_code ca_reason_code]. rewrite code_canon'. split; [reflexivity|].
    rewrite Ev, Ea. reflexivity.
  - assert (Hps' : ps = [] /\ ca_properties c = None) by (destruct v; try discriminate; exact Hps). destruct Hps' as [-> Ea].
    unfold connack_dec_v3. cbn [app advance1 bind].
    rewrite <- app_assoc, vbi_roundtrip by exact Hb. cbn [bind]. cbn [app] in *. rewrite Hfl. cbn [bind get_u8 lift_packet].
    eexists. split; [reflexivity|].
    assert (Ev' : ca_protocol_version c = V3_1_1) by (rewrite Ev; destruct v; try discriminate; reflexivity).
    cbn [same_code ca_reason_code]. rewrite Ev', Ea.
    destruct v; try discriminate; cbn in Hc;
      (destruct Hc as [E|[E|[E|[E|[E|[E|[]]]]]]]; inv E; split; reflexivity).
Qed.

(** The size that the decoder of PUBLISH recomputes from the decoded properties is the size on the wire, in whatever order
    they came. *)
Lemma the_absent {A} (f : property -> option A) i l :
  (forall q, f q <> None -> identifier q = i /\ is_user q = false) -> ~ In i (ids l) -> the f l = None.
Proof.
  intros Hf Hi. induction l as [|q l IH]; [reflexivity|]. cbn [the]. change (q :: l) with ([q] ++ l) in Hi. rewrite ids_app in Hi.
  rewrite IH by (intros H; apply Hi, in_or_app; right; exact H).
  destruct (f q) eqn:E; [|reflexivity]. exfalso. apply Hi, in_or_app. left.
  destruct (Hf q) as [H1 H2]; [congruence|]. unfold ids. cbn. rewrite H2. left. exact H1.
Qed.
Lemma ulist_push o k v : ulist (push_user o k v) = ulist o ++ [PUserProperty k v].
Proof. destruct o as [u|]; cbn; [rewrite map_app|]; reflexivity. Qed.
Lemma once_snoc l q : once (l ++ [q]) -> once l /\ (is_user q = false -> ~ In (identifier q) (ids l)).
Proof.
  unfold once. rewrite filter_app, map_app. intros H. split.
  - clear -H. induction (map identifier _) as [|x L IH]; [constructor|]. cbn in H. inv H. constructor; [|auto].
    intros Hi. apply H2, in_or_app. left. exact Hi.
  - intros Hq. cbn in H. rewrite Hq in H. cbn in H. apply NoDup_remove_2 in H. rewrite app_nil_r in H. exact H.
Qed.

Lemma props_enc_app l l' : props_enc (l ++ l') = props_enc l ++ props_enc l'.
Proof. apply flat_map_app. Qed.

Lemma publish_resize l : Forall wf_prop l -> Forall publish_has l -> once l ->
  Forall wf_prop (publish_props_list (publish_says l)) /\
  blen (props_enc (publish_props_list (publish_says l))) = blen (props_enc l).
Proof.
  induction l as [|q l IH] using rev_ind; intros Hw Hh Ho; [split; [constructor|reflexivity]|].
  apply Forall_app in Hw, Hh. destruct Hw as [Hw Hq], Hh as [Hh Hqh]. inv Hq. inv Hqh. rename H1 into Hq. rename H3 into Hqh.
  apply once_snoc in Ho. destruct Ho as [Ho Hi]. destruct (IH Hw Hh Ho) as [IHw IHl]. clear IH.
  rewrite (props_enc_app l), blen_app, <- IHl. clear IHl. unfold publish_props_list in *.
  unfold publish_says in *.
  cbn [pp_payload_format_indicator pp_message_expiry_interval pp_topic_alias pp_response_topic pp_correlation_data
       pp_user_property pp_subscription_identifier pp_content_type] in *.
  rewrite !the_snoc, users_snoc.
  destruct q; try (exfalso; revert Hqh; apply not_listed; reflexivity); cbn [identifier is_user] in Hi;
    try specialize (Hi eq_refl); try rewrite ulist_push; rewrite ?props_enc_app, ?blen_app, !Forall_app in *;
    repeat match goal with H : _ /\ _ |- _ => destruct H end;
    repeat match goal with
    | Hi : ~ In ?i _, H : Forall wf_prop (olist ?P (the ?f l)) |- _ =>
        let Ha := fresh in
        assert (Ha : the f l = None)
          by (apply (the_absent _ i); [intros x Hx; destruct x; try congruence; split; reflexivity|exact Hi]);
        rewrite Ha in *; clear Ha H
    | H : Forall wf_prop (olist ?P (the ?f l)) |- _ => let o := fresh in set (o := olist P (the f l)) in *; clearbody o
    end; cbn [olist].
  all: repeat match goal with |- _ /\ _ => split end; try assumption; try (repeat constructor; assumption).
  all: change (blen (props_enc [])) with 0; try lia.
  all: constructor; [assumption|constructor].
Qed.

Lemma publish_read p v b bs r : v = V5 -> wire v (Publish b) bs -> lift_packet Publish (publish_dec p (bs ++ r)) = Ok (Publish b, r).
Proof.
  intros -> (q & topic & id & ps & d & Hf & Hq & Ht & Hid & Hps & Hd & Hdb).
  apply frame_inv in Hf. destruct Hf as [Hb ->]. unfold publish_dec. cbn [app get_u8 bind].
  rewrite <- app_assoc, vbi_roundtrip by exact Hb. cbn [bind]. rewrite <- !app_assoc.
  assert (Hh : let h := 48 + 8 * bit (pb_dup b) + 2 * q + bit (pb_retain b) in
    negb (N.land h 8 =? 0) = pb_dup b /\ qos_from (N.land h 6 / 2) = pb_qos b /\ negb (N.land h 1 =? 0) = pb_retain b).
  { unfold qos_bits in Hq. cbn in Hq. destruct Hq as [E|[E|[E|[]]]]; inv E; destruct (pb_dup b), (pb_retain b); repeat split; reflexivity. }
  destruct Hh as (-> & -> & ->). rewrite (string_read _ _ _ Ht). cbn [bind].
  assert (Hpid : forall r', (match pb_qos b with
       | AtMostOnce => Ok (None, id ++ r')
       | QInvalid => Err (EReason MalformedPacket)
       | _ => do (i, r0) <- u16_dec (id ++ r'); Ok (Some i, r0)
       end) = Ok (pb_packet_id b, r') /\ blen id = pid_size (pb_packet_id b)).
  { intros r'. destruct (pb_qos b).
    - destruct Hid as [-> ->]. split; reflexivity.
    - destruct Hid as (i & Hi & ->). rewrite (int2_read _ _ _ Hi). apply int2_iff in Hi. destruct Hi as [_ ->]. split; reflexivity.
    - destruct Hid as (i & Hi & ->). rewrite (int2_read _ _ _ Hi). apply int2_iff in Hi. destruct Hi as [_ ->]. split; reflexivity.
    - exfalso. unfold qos_bits in Hq. cbn in Hq. destruct Hq as [E|[E|[E|[]]]]; inv E. }
  rewrite (proj1 (Hpid _)). cbn [bind]. destruct (Hpid []) as [_ Hil]. clear Hpid.
  destruct Hps as (l & Hs & Hl & Ho & Ep).
  rewrite (section_read p PacketIncomplete _ _ _ _ _ _ _ publish_folds Hs Hl (Forall_impl _ publish_no_rri Hl)). cbn [bind].
  apply section_iff in Hs. destruct Hs as (Hw & Hm & ->).
  destruct (publish_resize l Hw Hl Ho) as [Hw' Hsz].
  rewrite publish_props_size_list_eq, (props_size_wf _ Hw'), Hsz. cbn [bind].
  assert (Hv : vsize (blen (props_enc l)) = Ok (blen (vbi_enc (blen (props_enc l))))).
  { unfold vsize, as_u32. rewrite N.mod_small by (unfold two32, vbi_max in *; lia). apply vbi_size_spec, Hm. }
  rewrite Hv. cbn [bind]. apply string_iff in Ht. destruct Ht as [_ ->].
  rewrite !blen_app, blen_str_enc, Hil.
  match goal with |- context [usize_sub p ?x ?y] => replace (usize_sub p x y) with (Ok (A := N) (blen d)) end.
  2:{ unfold usize_sub. case_if; [f_equal; lia|lia]. }
  cbn [bind]. replace (blen d + blen r <? blen d) with false by lia. rewrite btake_app, bdrop_app. cbn [lift_packet bind].
  destruct b; cbn in *. subst. reflexivity.
Qed.

Lemma ack_read p v h a body bs r :
  frame h body bs -> ack_field v a body -> blen bs <> 5 -> exists a',
  ack_dec p (bs ++ r) = Ok (a', r) /\ code (ak_reason a) = code (ak_reason a') /\
  a' = Mk_ack_packet (ak_packet_id a) (ak_reason a') (ak_properties a).
Proof.
  intros Hf (id & rest & -> & Hid & Hrest) H5. apply frame_inv in Hf. destruct Hf as [Hb ->].
  assert (Hl : blen id = 2) by (apply int2_iff in Hid; destruct Hid as [_ ->]; reflexivity).
  unfold ack_dec. cbn [app advance1 bind]. rewrite <- app_assoc, vbi_roundtrip by exact Hb. cbn [bind].
  rewrite <- app_assoc, (int2_read _ _ _ Hid). cbn [bind]. rewrite blen_app, Hl.
  destruct Hrest as [(-> & Er & Ep)|[(-> & -> & Ep)|(-> & ps & -> & Hps)]].
  - change (2 + blen (@nil N) =? 2) with true. cbn [app]. eexists. split; [reflexivity|]. cbn [ak_reason]. rewrite Er, Ep. auto.
  - exfalso. apply H5. rewrite blen_cons, !blen_app, Hl. reflexivity.
  - rewrite blen_cons. replace (2 + (1 + blen ps) =? 2) with false by lia. cbn [app]. rewrite code_read. cbn [bind].
    destruct (props_read p PacketIncomplete _ _ _ _ _ _ ack_folds ack_no_rri Hps) as (o & Eo & Hr). rewrite Hr. cbn [bind].
    eexists. split; [reflexivity|]. cbn [ak_reason]. rewrite code_canon', Eo. auto.
Qed.

Lemma many_loop {A B} (field : bytes -> A -> Prop) (dec : bytes -> res (B * bytes)) (g : A -> B) bs l r :
  (forall x a, field x a -> 1 <= blen x /\ forall r, dec (x ++ r) = Ok (g a, r)) ->
  many field bs l -> forall fuel, (length (bs ++ r) < fuel)%nat ->
  payload_loop dec fuel (blen r) (bs ++ r) = Ok (map g l, r).
Proof.
  intros Hd. induction 1 as [|a l x bs Hx _ IH]; intros fuel Hf.
  - cbn [app map]. destruct fuel; cbn [payload_loop]; replace (blen r <? blen r) with false by lia; reflexivity.
  - destruct (Hd _ _ Hx) as [Hl Hx']. rewrite <- app_assoc in *.
    destruct fuel as [|fuel]; [lia|]. cbn [payload_loop].
    replace (blen r <? blen (x ++ bs ++ r)) with true by (rewrite !blen_app; lia).
    rewrite Hx'. cbn [bind]. rewrite IH; [reflexivity|]. rewrite app_length in Hf. unfold blen in Hl. lia.
Qed.
Lemma many_nonempty {A} (field : bytes -> A -> Prop) bs l r :
  (forall x a, field x a -> 1 <= blen x) -> many field bs l -> l <> [] -> (blen (bs ++ r) =? 0) = false.
Proof. intros Hx H Hl. destruct H as [|a l x bs Hf _]; [congruence|]. apply Hx in Hf. rewrite !blen_app. lia. Qed.

Lemma string_nonempty x s : string_field x s -> 1 <= blen x.
Proof. intros H. apply string_iff in H. destruct H as [_ ->]. apply blen_str_enc_pos. Qed.

Lemma options_read v o n : options_field v o n -> sub_options_of_byte n = Ok o.
Proof.
  intros (q & h & Hq & Hh & -> & _). destruct o as [q' nl ra h']; cbn [so_qos so_no_local so_retain_as_pub so_retain_handling] in *.
  unfold qos_bits in Hq. cbn in Hq, Hh.
  destruct Hq as [E|[E|[E|[]]]]; inv E; destruct Hh as [E|[E|[E|[]]]]; inv E; destruct nl, ra; reflexivity.
Qed.

Lemma subscribe_read p v s bs r : v = V5 -> wire v (Subscribe s) bs ->
  lift_packet Subscribe (subscribe_dec p (bs ++ r)) = Ok (Subscribe s, r).
Proof.
  intros -> (id & ps & fs & Hf & Hid & Hps & Hfs & Hne). apply frame_inv in Hf. destruct Hf as [Hb ->].
  unfold subscribe_dec. cbn [app advance1 bind]. rewrite <- app_assoc, vbi_roundtrip by exact Hb. cbn [bind].
  rewrite usize_sub_body. rewrite <- !app_assoc, (int2_read _ _ _ Hid). cbn [bind].
  destruct (props_read p (EReason MalformedPacket) _ _ _ _ _ _ subscribe_folds subscribe_no_rri Hps) as (o & Eo & Hr). rewrite Hr. cbn [bind].
  assert (Hd : forall x fo, (exists f n, x = f ++ [n] /\ string_field f (fst fo) /\ options_field V5 (snd fo) n) ->
    1 <= blen x /\ forall r, sub_filter_dec (x ++ r) = Ok (fo, r)).
  { intros x [f0 o0] (f & n & -> & Hs & Ho). cbn [fst snd] in *. split; [rewrite blen_app, blen_cons; lia|]. intros r0.
    unfold sub_filter_dec. rewrite <- app_assoc, (string_read _ _ _ Hs). cbn [bind app]. unfold sub_options_dec. cbn [get_u8 bind].
    rewrite (options_read _ _ _ Ho). reflexivity. }
  rewrite (many_nonempty _ _ _ _ (fun x a H => proj1 (Hd x a H)) Hfs Hne).
  rewrite (many_loop _ sub_filter_dec (fun x => x) _ _ _ Hd Hfs) by lia. cbn [bind lift_packet]. rewrite map_id.
  destruct s; cbn in *. subst. reflexivity.
Qed.

Lemma unsubscribe_read p v s bs r : v = V5 -> wire v (Unsubscribe s) bs ->
  lift_packet Unsubscribe (unsubscribe_dec p (bs ++ r)) = Ok (Unsubscribe s, r).
Proof.
  intros -> (id & ps & fs & Hf & Hid & Hps & Hfs & Hne). apply frame_inv in Hf. destruct Hf as [Hb ->].
  unfold unsubscribe_dec. cbn [app advance1 bind]. rewrite <- app_assoc, vbi_roundtrip by exact Hb. cbn [bind].
  rewrite usize_sub_body. rewrite <- !app_assoc, (int2_read _ _ _ Hid). cbn [bind].
  destruct (props_read p PacketIncomplete _ _ _ _ _ _ unsubscribe_folds unsubscribe_no_rri Hps) as (o & Eo & Hr). rewrite Hr. cbn [bind].
  assert (Hd : forall x f, string_field x f -> 1 <= blen x /\ forall r, str_dec (x ++ r) = Ok (f, r)).
  { intros x f H. split; [eapply string_nonempty, H|]. intros r0. apply string_read, H. }
  rewrite (many_nonempty _ _ _ _ (fun x a H => proj1 (Hd x a H)) Hfs Hne).
  rewrite (many_loop _ str_dec (fun x => x) _ _ _ Hd Hfs) by lia. cbn [bind lift_packet]. rewrite map_id.
  destruct s; cbn in *. subst. reflexivity.
Qed.

Lemma map_code_canon l : map code (map canon_reason l) = map code l.
Proof. rewrite map_map. apply map_ext. apply code_canon'. Qed.

Lemma suback_read p v s bs r : wire v (SubAck s) bs -> exists s',
  lift_packet SubAck (if supports_properties v then suback_dec p (bs ++ r) else suback_dec_v3 p (bs ++ r)) = Ok (SubAck s', r)
  /\ same_code (SubAck s) (SubAck s').
Proof.
  intros (Ev & id & ps & rs & Hf & Hid & Hps & Hrs & Hne). apply frame_inv in Hf. destruct Hf as [Hb ->].
  destruct (supports_properties v) eqn:Es.
  - destruct v; try discriminate. unfold suback_dec. cbn [app advance1 bind].
    rewrite <- app_assoc, vbi_roundtrip by exact Hb. cbn [bind].
    rewrite usize_sub_body. rewrite <- !app_assoc, (int2_read _ _ _ Hid). cbn [bind].
    destruct (props_read p PacketIncomplete _ _ _ _ _ _ ack_folds ack_no_rri Hps) as (o & Eo & Hr). rewrite Hr. cbn [bind].
    assert (Hd : forall x rc, (exists n, x = [n] /\ subscribe_code V5 rc n) ->
      1 <= blen x /\ forall r, reason_dec (x ++ r) = Ok (canon_reason rc, r)).
    { intros x rc (n & -> & E). cbn in E. subst n. split; [rewrite blen_cons; lia|]. intros r0. apply code_read. }
    rewrite (many_nonempty _ _ _ _ (fun x a H => proj1 (Hd x a H)) Hrs Hne).
    rewrite (many_loop _ reason_dec canon_reason _ _ _ Hd Hrs) by lia. cbn [bind lift_packet].
    eexists. split; [reflexivity|]. cbn [same_code sa_payload]. rewrite map_code_canon, Ev, Eo. auto.
  - assert (Hps' : ps = [] /\ sa_properties s = None) by (destruct v; try discriminate; exact Hps). destruct Hps' as [-> Ea].
    assert (Ev' : sa_protocol_version s = V3_1_1) by (rewrite Ev; destruct v; try discriminate; reflexivity).
    unfold suback_dec_v3. cbn [app advance1 bind].
    rewrite <- app_assoc, vbi_roundtrip by exact Hb. cbn [bind].
    rewrite usize_sub_body. rewrite <- !app_assoc, (int2_read _ _ _ Hid). cbn [bind].
    assert (Hd : forall x rc, (exists n, x = [n] /\ subscribe_code v rc n) ->
      1 <= blen x /\ forall r, suback_v3_code (x ++ r) = Ok (rc, r)).
    { intros x rc (n & -> & E). split; [rewrite blen_cons; lia|]. intros r0.
      destruct v; try discriminate; cbn in E; (destruct E as [E|[E|[E|[E|[]]]]]; inv E; reflexivity). }
    rewrite (many_loop _ suback_v3_code (fun x => x) _ _ _ Hd Hrs) by lia. cbn [bind lift_packet]. rewrite map_id.
    eexists. split; [reflexivity|]. cbn [same_code sa_payload]. rewrite Ev', Ea. auto.
Qed.

Lemma unsuback_read p v s bs r : wire v (UnsubAck s) bs -> exists s',
  lift_packet UnsubAck (if supports_properties v then unsuback_dec p (bs ++ r) else unsuback_dec_v3 p (bs ++ r)) = Ok (UnsubAck s', r)
  /\ same_code (UnsubAck s) (UnsubAck s').
Proof.
  intros (Ev & id & ps & rs & Hf & Hid & Hps & Hrs). apply frame_inv in Hf. destruct Hf as [Hb ->].
  destruct (supports_properties v) eqn:Es.
  - destruct v; try discriminate. destruct Hrs as [Hrs Hne]. unfold unsuback_dec. cbn [app advance1 bind].
    rewrite <- app_assoc, vbi_roundtrip by exact Hb. cbn [bind].
    rewrite usize_sub_body. rewrite <- !app_assoc, (int2_read _ _ _ Hid). cbn [bind].
    destruct (props_read p PacketIncomplete _ _ _ _ _ _ ack_folds ack_no_rri Hps) as (o & Eo & Hr). rewrite Hr. cbn [bind].
    assert (Hd : forall x rc, x = [code rc] ->
      1 <= blen x /\ forall r, reason_dec (x ++ r) = Ok (canon_reason rc, r)).
    { intros x rc ->. split; [rewrite blen_cons; lia|]. intros r0. apply code_read. }
    rewrite (many_nonempty _ _ _ _ (fun x a H => proj1 (Hd x a H)) Hrs Hne).
    rewrite (many_loop _ reason_dec canon_reason _ _ _ Hd Hrs) by lia. cbn [bind lift_packet].
    eexists. split; [reflexivity|]. cbn [same_code ua_payload]. rewrite map_code_canon, Ev, Eo. auto.
  - assert (H3 : ps = [] /\ ua_properties s = None /\ rs = [] /\ ua_payload s = []) by (destruct v; try discriminate; cbn in *; tauto).
    destruct H3 as (-> & Ea & -> & El).
    assert (Ev' : ua_protocol_version s = V3_1_1) by (rewrite Ev; destruct v; try discriminate; reflexivity).
    unfold unsuback_dec_v3. cbn [app advance1 bind].
    rewrite <- app_assoc, vbi_roundtrip by exact Hb. cbn [bind]. rewrite <- app_assoc, (int2_read _ _ _ Hid). cbn [bind lift_packet app].
    eexists. split; [reflexivity|]. cbn [same_code ua_payload]. rewrite Ev', Ea, El. auto.
Qed.

Lemma disconnect_read p v d bs r : wire v (Disconnect d) bs -> exists d',
  lift_packet Disconnect (disconnect_dec p (bs ++ r)) = Ok (Disconnect d', r) /\ same_code (Disconnect d) (Disconnect d').
Proof.
  intros (body & Hf & Hd). apply frame_inv in Hf. destruct Hf as [Hb ->].
  unfold disconnect_dec. cbn [app get_u8 bind]. change (negb (N.land 224 15 =? 0)) with false.
  rewrite <- app_assoc, vbi_roundtrip by exact Hb. cbn [bind same_code].
  destruct Hd as [(-> & Er & Ep)|[(-> & -> & Ep)|(-> & ps & -> & Hps)]].
  - eexists. split; [reflexivity|]. cbn [d_reason]. rewrite Er, Ep. auto.
  - change (blen [code (d_reason d)] <? 1) with false. change (blen [code (d_reason d)] <? 2) with true.
    cbn [app]. rewrite code_read. cbn [bind lift_packet]. eexists. split; [reflexivity|]. cbn [d_reason].
    rewrite code_canon', Ep. auto.
  - assert (Hl : 1 <= blen ps).
    { destruct Hps as (l & Hs & _). apply section_iff in Hs. destruct Hs as (_ & Hm & ->).
      rewrite blen_app. pose proof (vbi_enc_len _ Hm). lia. }
    rewrite blen_cons. replace (1 + blen ps <? 1) with false by lia. replace (1 + blen ps <? 2) with false by lia.
    cbn [app]. rewrite code_read. cbn [bind].
    destruct (props_read p PacketIncomplete _ _ _ _ _ _ disconnect_folds disconnect_no_rri Hps) as (o & Eo & Hr). rewrite Hr.
    cbn [bind lift_packet]. eexists. split; [reflexivity|]. cbn [d_reason]. rewrite code_canon', Eo. auto.
Qed.

Lemma auth_read p v a bs r : wire v (Auth a) bs -> blen bs <> 2 -> exists a',
  lift_packet Auth (auth_dec p (bs ++ r)) = Ok (Auth a', r) /\ same_code (Auth a) (Auth a').
Proof.
  intros (-> & body & Hf & Hd) H2. apply frame_inv in Hf. destruct Hf as [Hb ->].
  destruct Hd as [(-> & _ & _)|(ps & -> & Hps)]; [exfalso; apply H2; reflexivity|].
  unfold auth_dec. cbn [app get_u8 bind]. change (negb (N.land 240 15 =? 0)) with false.
  rewrite <- app_assoc, vbi_roundtrip by exact Hb. cbn [bind same_code app]. rewrite code_read. cbn [bind].
  destruct (props_read p PacketIncomplete _ _ _ _ _ _ auth_folds auth_no_rri Hps) as (o & Eo & Hr). rewrite Hr. inv Eo.
  cbn [bind lift_packet]. eexists. split; [reflexivity|]. cbn [au_reason]. rewrite code_canon'. auto.
Qed.

Lemma packet_read p v k bs r : wire v k bs -> readable v k bs ->
  exists k', parse_with_version p v (bs ++ r) = Ok (k', r) /\ same_code k k'.
Proof.
  intros Hw Hr.
  assert (Hhd : forall h body, frame h body bs -> exists t, bs ++ r = h :: t).
  { intros h body Hf. apply frame_inv in Hf. destruct Hf as [_ ->]. eexists. reflexivity. }
  assert (Hpw : forall h body, frame h body bs -> forall x,
    match h / 16 with
      | 1 => lift_packet Connect (connect_dec p (bs ++ r))
      | 2 => lift_packet ConnAck
               (if supports_properties v then connack_dec p (bs ++ r) else connack_dec_v3 p (bs ++ r))
      | 3 => lift_packet Publish (publish_dec p (bs ++ r))
      | 4 => lift_packet PubAck (ack_dec p (bs ++ r))
      | 5 => lift_packet PubRec (ack_dec p (bs ++ r))
      | 6 => lift_packet PubRel (ack_dec p (bs ++ r))
      | 7 => lift_packet PubComp (ack_dec p (bs ++ r))
      | 8 => lift_packet Subscribe (subscribe_dec p (bs ++ r))
      | 9 => lift_packet SubAck
               (if supports_properties v then suback_dec p (bs ++ r) else suback_dec_v3 p (bs ++ r))
      | 10 => lift_packet Unsubscribe (unsubscribe_dec p (bs ++ r))
      | 11 => lift_packet UnsubAck
                (if supports_properties v then unsuback_dec p (bs ++ r) else unsuback_dec_v3 p (bs ++ r))
      | 12 => lift_packet (fun _ => PingReq) (ping_dec (bs ++ r))
      | 13 => lift_packet (fun _ => PingResp) (ping_dec (bs ++ r))
      | 14 => lift_packet Disconnect (disconnect_dec p (bs ++ r))
      | 15 => lift_packet Auth (auth_dec p (bs ++ r))
      | _ => Err (EReason MalformedPacket)
      end = x -> parse_with_version p v (bs ++ r) = x).
  { intros h body Hf x H. destruct (Hhd _ _ Hf) as [t E]. unfold parse_with_version. rewrite E in *. exact H. }
  destruct k; cbn [readable] in Hr; try contradiction.
  - pose proof Hw as (_ & name & flags & ka & ps & pl & Hf & _). exists (Connect c). split; [|reflexivity].
    apply (Hpw _ _ Hf). change (16 / 16) with 1. cbv beta iota. rewrite (connect_read p v c bs r Hw Hr). reflexivity.
  - pose proof Hw as (_ & n & ps & Hf & _). destruct (connack_read p v c bs r Hw) as (c' & H & Hc).
    exists (ConnAck c'). split; [|exact Hc]. apply (Hpw _ _ Hf). exact H.
  - pose proof Hw as (q & topic & id & ps & d & Hf & Hq & _). exists (Publish b). split; [|reflexivity].
    apply (Hpw _ _ Hf). pose proof (publish_read p v b bs r Hr Hw) as H.
    assert (Hh : (48 + 8 * bit (pb_dup b) + 2 * q + bit (pb_retain b)) / 16 = 3).
    { unfold qos_bits in Hq. cbn in Hq. destruct Hq as [E|[E|[E|[]]]]; inv E; destruct (pb_dup b), (pb_retain b); reflexivity. }
    rewrite Hh. exact H.
  - destruct Hw as (body & Hf & Ha). destruct (ack_read p v _ a body bs r Hf Ha Hr) as (a' & H & Hc).
    exists (PubAck a'). split; [|exact Hc]. apply (Hpw _ _ Hf). change (64 / 16) with 4. cbv beta iota. rewrite H. reflexivity.
  - destruct Hw as (body & Hf & Ha). destruct (ack_read p v _ a body bs r Hf Ha Hr) as (a' & H & Hc).
    exists (PubRec a'). split; [|exact Hc]. apply (Hpw _ _ Hf). change (80 / 16) with 5. cbv beta iota. rewrite H. reflexivity.
  - destruct Hw as (body & Hf & Ha). destruct (ack_read p v _ a body bs r Hf Ha Hr) as (a' & H & Hc).
    exists (PubRel a'). split; [|exact Hc]. apply (Hpw _ _ Hf). change (98 / 16) with 6. cbv beta iota. rewrite H. reflexivity.
  - destruct Hw as (body & Hf & Ha). destruct (ack_read p v _ a body bs r Hf Ha Hr) as (a' & H & Hc).
    exists (PubComp a'). split; [|exact Hc]. apply (Hpw _ _ Hf). change (112 / 16) with 7. cbv beta iota. rewrite H. reflexivity.
  - pose proof Hw as (id & ps & fs & Hf & _). exists (Subscribe s). split; [|reflexivity].
    apply (Hpw _ _ Hf). exact (subscribe_read p v s bs r Hr Hw).
  - pose proof Hw as (_ & id & ps & fs & Hf & _). destruct (suback_read p v s bs r Hw) as (s' & H & Hc).
    exists (SubAck s'). split; [|exact Hc]. apply (Hpw _ _ Hf). exact H.
  - pose proof Hw as (id & ps & fs & Hf & _). exists (Unsubscribe s). split; [|reflexivity].
    apply (Hpw _ _ Hf). exact (unsubscribe_read p v s bs r Hr Hw).
  - pose proof Hw as (_ & id & ps & fs & Hf & _). destruct (unsuback_read p v s bs r Hw) as (s' & H & Hc).
    exists (UnsubAck s'). split; [|exact Hc]. apply (Hpw _ _ Hf). exact H.
  - pose proof Hw as (body & Hf & _). destruct (disconnect_read p v d bs r Hw) as (d' & H & Hc).
    exists (Disconnect d'). split; [|exact Hc]. apply (Hpw _ _ Hf). exact H.
  - pose proof Hw as (_ & body & Hf & _). destruct (auth_read p v a bs r Hw Hr) as (a' & H & Hc).
    exists (Auth a'). split; [|exact Hc]. apply (Hpw _ _ Hf). exact H.
Qed.
