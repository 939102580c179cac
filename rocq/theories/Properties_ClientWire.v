(** Property C98: what the client library writes are packets of the standard (SpecWire.v).
    Every theorem is followed by a concrete case meeting its hypotheses. *)
From Coq Require Import String.
From Verif Require Import Base Utf8 Codec Str SpecCodec Property SpecProperty PacketProps Packets SpecPackets Frame Tac CodecFacts
  PropertyFacts PacketPropsFacts PacketsFacts PacketsRoundtrip SpecWire WireConform WireDefects SpecOutput OutputFacts
  Client SpecClient ClientFacts Properties_Wire Properties_Client Properties_Format.

(** Arguments that fit into a packet: topics and filters are UTF-8 strings of at most 65535 bytes, payloads are bytes, the whole
    is at most 268435455 bytes long. *)
Definition fits (cmd : command) : Prop :=
  match cmd with
  | CmdPublish t d q r => wf_str t /\ is_bytes d /\ q <> QInvalid /\ blen t + blen d + 5 <= vbi_max
  | CmdSubscribe ts => ts <> [] /\ Forall (fun t => wf_str (fst t) /\ snd t <> QInvalid) ts /\
      fold_right (fun t n => blen (fst t) + 3 + n) 3 ts <= vbi_max
  | CmdUnsubscribe ts => ts <> [] /\ Forall wf_str ts /\ fold_right (fun t n => blen t + 2 + n) 3 ts <= vbi_max
  | CmdDisconnect => True
  end.
Definition fair (i : cinput) : Prop :=
  match i with
  | ICommand cmd _ => fits cmd
  | IRead (RPacket k) _ => SpecOutput.received k
  | _ => True
  end.

Lemma wrote_outcome {A} ok k (r : A) mk k' : In (Wrote k') (outcome ok k r mk) -> k' = k.
Proof. destruct ok; cbn; intuition congruence. Qed.

(** What is written, by the packet type. *)
Lemma step_written c i c' out k : cstep c i = Some (c', out) -> cl_next c < 65536 -> fair i -> In (Wrote k) out ->
  wf_packet k /\ sendable k /\ version_of k = V5 /\ exists bs, packet_enc k = Ok bs /\ blen bs <= max_frame.
Proof.
  intros Hs Hn Hf Hin. apply cstep_inv in Hs. inversion Hs; subst; cbn [fair fits] in Hf;
    try (apply wrote_outcome in Hin; subst k); try (cbn in Hin; intuition congruence).
  - destruct Hf as (K1 & K2 & K3 & K4). split; [repeat split; try apply K1; try discriminate; exact I|]. split; [exact K2|].
    split; [reflexivity|]. exact (publish_sent _ _ _ _ _ K4).
  - destruct Hf as (K1 & K2 & K3 & K4). split.
    { split; [exact K3|]. split; [exact K1|]. split; [|exact I]. cbn. destruct q; try congruence; exact Hn. }
    split; [exact K2|]. split; [reflexivity|]. exact (publish_sent _ _ _ _ _ K4).
  - destruct Hf as (K1 & K2 & K3). split.
    { split; [exact Hn|]. split; [exact I|]. split; [destruct ts; [congruence|discriminate]|].
      apply Forall_map. revert K2. apply Forall_impl. intros [t q] [Q1 Q2]. split; [exact Q1|]. split; [exact Q2|discriminate]. }
    split; [exact I|]. split; [reflexivity|]. exact (subscribe_sent _ _ K3).
  - destruct Hf as (K1 & K2 & K3). split; [split; [exact Hn|]; split; [exact I|]; split; assumption|].
    split; [exact I|]. split; [reflexivity|]. exact (unsubscribe_sent _ _ K3).
  - split; [exact I|]. split; [exact I|]. split; [reflexivity|]. eexists. split; [reflexivity|]. vm_compute. discriminate.
  - destruct ok; cbn in Hin; [|intuition congruence]. destruct Hin as [E|[]]. injection E as <-.
    assert (Hid : wf_id id).
    { pose proof (proj1 (received_publish _ Hf)) as Q. rewrite H0, H1 in Q. exact Q. }
    split; [split; [exact Hid|exact I]|]. split; [exact I|]. split; [reflexivity|].
    eexists. split; [reflexivity|]. apply (N.le_trans _ 4); vm_compute; discriminate.
  - cbn in Hin. destruct Hin as [E|[]]. injection E as <-. split; [exact I|]. split; [exact I|]. split; [reflexivity|].
    eexists. split; [reflexivity|]. vm_compute. discriminate.
Qed.

(** ** C98: every packet that the library writes is a packet of version 5 *)
Theorem C98_client_packets_conform_partial is c outs k :
  cruns client_new is c outs -> Forall fair is -> In (Wrote k) outs ->
  exists bs, packet_enc k = Ok bs /\ wire V5 (canon k) bs.
Proof.
  intros Hr Hf Hin. induction Hr as [|is c1 outs i c2 out Hr IH Hs]; [destruct Hin|].
  apply Forall_app in Hf. destruct Hf as [Hf Hi]. apply in_app_or in Hin. destruct Hin as [Hin|Hin]; [auto|].
  assert (Hn : cl_next c1 < 65536).
  { rewrite (proj1 (ids_used _ _ _ Hr)). apply N.mod_upper_bound. discriminate. }
  inversion Hi as [|? ? Hfi _]; subst.
  destruct (step_written _ _ _ _ _ Hs Hn Hfi Hin) as (H1 & H2 & H3 & bs & H4 & H5).
  exists bs. split; [exact H4|]. rewrite <- H3. apply packet_conform; assumption.
Qed.
Print Assumptions C98_client_packets_conform_partial.
Definition ex_history : list cinput :=
  [ICommand (CmdSubscribe [(str "x/+"%string, AtLeastOnce)]) true;
   IRead (RPacket (Publish (Mk_publish_packet false AtLeastOnce false (str "x/y"%string) (Some 9)
     (Some publish_props_default) (Some (str "v"%string))))) true;
   ICommand (CmdPublish (str "t"%string) (str "w"%string) AtLeastOnce true) true;
   ITick true; ICommand (CmdUnsubscribe [str "x/+"%string]) true; ICommand CmdDisconnect true].
Lemma str_fits s : utf8_valid (str s) = true -> blen (str s) <=? 65535 = true -> wf_str (str s).
Proof. apply wf_str_by. Qed.
Lemma all_bytes bs : forallb (fun b => b <? 256) bs = true -> is_bytes bs.
Proof. intros H. rewrite forallb_forall in H. apply Forall_forall. intros x Hx. specialize (H x Hx). unfold is_byte. lia. Qed.
Example C98_ex : Forall fair ex_history /\ exists c outs, cruns client_new ex_history c outs /\
  map (fun k => packet_enc k) (written outs) =
    [Ok [0x82; 9; 0; 1; 0; 0; 3; 120; 47; 43; 1]; Ok [0x40; 2; 0; 9]; Ok [0x33; 7; 0; 1; 116; 0; 2; 0; 119];
     Ok [0xC0; 0]; Ok [0xA2; 8; 0; 3; 0; 0; 3; 120; 47; 43]; Ok [0xE0; 1; 0]].
Proof.
  split.
  - unfold ex_history. constructor; [|constructor; [|constructor; [|constructor; [|constructor; [|constructor; [|constructor]]]]]].
    + split; [discriminate|]. split; [|vm_compute; discriminate]. constructor; [|constructor].
      split; [apply str_fits; reflexivity|discriminate].
    + exists Debug, V5, [0x32; 9; 0; 3; 120; 47; 121; 0; 9; 0; 118], [].
      split; [apply all_bytes; reflexivity|]. split; [reflexivity|vm_compute; reflexivity].
    + split; [apply str_fits; reflexivity|]. split; [apply all_bytes; reflexivity|].
      split; [discriminate|vm_compute; discriminate].
    + exact I.
    + split; [discriminate|]. split; [|vm_compute; discriminate]. constructor; [apply str_fits; reflexivity|constructor].
    + exact I.
  - destruct (crun client_new ex_history) as [[c o]|] eqn:E; [|vm_compute in E; discriminate].
    exists c, o. split; [apply crun_sound, E|]. vm_compute in E. injection E as <- <-. vm_compute. reflexivity.
Qed.

(** The CONNECT is a packet of the version chosen. *)
Theorem C98_connect_conforms o : options_fit o ->
  exists bs, packet_enc (Connect (build_connect o)) = Ok bs /\ wire (op_version o) (canon (Connect (build_connect o))) bs.
Proof.
  intros Ho. destruct (connect_sent o Ho) as (bs & H1 & H2 & H3). exists bs. split; [exact H1|].
  apply (packet_conform (Connect (build_connect o))); auto.
  cbn. destruct (op_will o); [discriminate|reflexivity].
Qed.
Print Assumptions C98_connect_conforms.
Example C98_connect_ex : options_fit options_new /\
  packet_enc (Connect (build_connect options_new)) = Ok [0x10; 13; 0; 4; 77; 81; 84; 84; 5; 2; 0; 60; 0; 0; 0].
Proof. split; [|vm_compute; reflexivity]. repeat split; exact I. Qed.

(** ** Version 3: the options have a version, but it is used for the CONNECT only *)

(** A message published arrives with one more byte at a broker that speaks version 3. *)
Theorem C98_version_3_payload_refuted c t d q r ok c' out b v :
  cstep c (ICommand (CmdPublish t d q r) ok) = Some (c', out) -> In (Wrote (Publish b)) out -> cl_next c < 65536 ->
  fits (CmdPublish t d q r) -> v <> V5 ->
  exists bs b', packet_enc (Publish b) = Ok bs /\ wire v (Publish b') bs /\
    pb_topic b' = t /\ pb_qos b' = q /\ pb_retain b' = r /\ pb_payload b' = Some (0 :: d).
Proof.
  intros Hs Hin Hn Hf Hv. destruct (step_written _ _ _ _ _ Hs Hn Hf Hin) as (_ & _ & _ & bs & Hb & Hl).
  destruct Hf as (F1 & F2 & F3 & _).
  assert (P : b = Mk_publish_packet false q r t (match q with AtMostOnce => None | _ => Some (cl_next c) end) None (Some d)).
  { apply cstep_inv in Hs. inversion Hs; subst; try (cbn in Hin; intuition congruence);
      apply wrote_outcome in Hin; injection Hin as ->; [reflexivity|]. destruct q; congruence. }
  assert (Hp : proper v (Publish b)).
  { subst b. cbn. split; [exact F1|]. split; [exact F3|]. split; [exact F2|]. split; [reflexivity|].
    destruct q; try congruence; [exact I|split; [discriminate|exact Hn]|split; [discriminate|exact Hn]]. }
  assert (Hi : pb_qos b <> AtMostOnce -> pb_packet_id b <> None) by (subst b; cbn; destruct q; congruence).
  destruct (proper_publish_v3 v b Hp Hv Hi) as (bs' & Hb' & Hw). rewrite Hb in Hb'. injection Hb' as <-.
  eexists _, _. split; [exact Hb|]. split; [exact (Hw Hl)|]. subst b. repeat split.
Qed.
Print Assumptions C98_version_3_payload_refuted.
Example C98_version_3_ex : fits (CmdPublish (str "t"%string) (str "w"%string) AtMostOnce false) /\
  exists c' b a, cstep client_new (ICommand (CmdPublish (str "t"%string) (str "w"%string) AtMostOnce false) true) =
    Some (c', [Wrote (Publish b); a]).
Proof.
  split; [|eexists _, _, _; reflexivity].
  split; [apply str_fits; reflexivity|]. split; [apply all_bytes; reflexivity|].
  split; [discriminate|vm_compute; discriminate].
Qed.

(** A subscription is no packet of version 3 at all. *)
Lemma subscribe_v3_not_wire v k : v <> V5 -> ~ wire v k [0x82; 9; 0; 1; 0; 0; 3; 120; 47; 43; 0].
Proof.
  intros Hv Hw. destruct (wire_first _ _ _ Hw) as (h & n & t & E & _ & Hk).
  injection E as <- _. destruct k; cbn [first_byte] in Hk; try lia. clear Hk.
  destruct Hw as (id & ps & fs & Hf & Hi & Hp & Hm & _). apply frame_short in Hf; [|lia]. destruct Hf as (_ & _ & E).
  assert (Ep : ps = []) by (destruct v; [apply Hp|apply Hp|congruence]). subst ps.
  destruct Hi as (hi & lo & -> & _). cbn [app] in E. injection E as _ _ E.
  inversion Hm as [E1 E2|a l x bs Hx _ E1 E2]; subst; [discriminate|].
  destruct Hx as (f & o & -> & Hs & q & h & Hq & Hh & Ho & _).
  destruct Hs as (l' & -> & Hl & _). destruct Hl as (h1 & l1 & -> & _ & _ & El). cbn [app] in E1. injection E1 as -> -> E.
  assert (Z : blen (fst a) = 0) by lia. destruct (fst a); [|rewrite blen_cons in Z; lia]. cbn [app] in E. injection E as -> _.
  unfold qos_bits in Hq. cbn [In] in Hq, Hh. clear - Ho Hq Hh.
  assert (In q [0;1;2]) by (cbn; intuition congruence). assert (In h [0;1;2]) by (cbn; intuition congruence).
  cbn in *. destruct (so_no_local (snd a)), (so_retain_as_pub (snd a)); cbn [bit] in Ho; intuition lia.
Qed.
Theorem C98_version_3_subscribe_refuted : exists c' k bs rs,
  cstep client_new (ICommand (CmdSubscribe [(str "x/+"%string, AtMostOnce)]) true) = Some (c', [Wrote k; Answer (Subscribed (COk rs))]) /\
  fits (CmdSubscribe [(str "x/+"%string, AtMostOnce)]) /\
  packet_enc k = Ok bs /\ forall v k', v <> V5 -> ~ wire v k' bs.
Proof.
  eexists _, _, _, _. split; [reflexivity|]. split.
  { split; [discriminate|]. split; [|vm_compute; discriminate]. constructor; [|constructor].
    split; [apply str_fits; reflexivity|discriminate]. }
  split; [vm_compute; reflexivity|]. intros v k' Hv. apply subscribe_v3_not_wire. exact Hv.
Qed.
Print Assumptions C98_version_3_subscribe_refuted.

(** ** Values that the standard forbids ([legal] in SpecWire.v) *)
Definition sober (i : cinput) : Prop :=
  match i with
  | ICommand (CmdPublish t _ _ _) _ => ~ In 43 t /\ ~ In 35 t
  | IRead (RPacket k) _ => legal k
  | _ => True
  end.
Lemma step_shape c i c' out k : cstep c i = Some (c', out) -> sober i -> In (Wrote k) out ->
  (forall id, In id (request_id k) -> id <> 0) -> legal (canon k).
Proof.
  intros Hs Hf Hin Hid. apply cstep_inv in Hs. inversion Hs; subst; cbn [sober] in Hf;
    try (apply wrote_outcome in Hin; subst k); try (cbn in Hin; intuition congruence); cbn in Hid |- *.
  - split; [reflexivity|]. split; [apply Hf|]. split; [apply Hf|]. split; [discriminate|]. constructor.
  - split; [congruence|]. split; [apply Hf|]. split; [apply Hf|]. split; [|constructor].
    intros E. injection E as E. exact (Hid _ (or_introl eq_refl) E).
  - split; [apply Hid; left; reflexivity|constructor].
  - apply Hid. left. reflexivity.
  - exact I.
  - destruct ok; cbn in Hin; [|intuition congruence]. destruct Hin as [E|[]]. injection E as <-. cbn.
    destruct Hf as (_ & _ & _ & Hf & _). intros ->. rewrite H1 in Hf. apply Hf. reflexivity.
  - cbn in Hin. destruct Hin as [E|[]]. injection E as <-. exact I.
Qed.
Theorem C98_no_forbidden_values_partial is c outs k :
  cruns client_new is c outs -> Forall sober is -> blen (request_ids outs) < 65536 -> In (Wrote k) outs -> legal (canon k).
Proof.
  intros Hr Hf Hl Hin.
  assert (Hid : forall id, In id (request_id k) -> id <> 0).
  { intros id Hi. assert (Hid : In id (request_ids outs)).
    { apply in_flat_map. exists k. split; [|exact Hi]. apply in_flat_map. exists (Wrote k). split; [exact Hin|left; reflexivity]. }
    apply In_nth_error in Hid. destruct Hid as (i & Hn).
    assert (Hlt : (i < length (request_ids outs))%nat) by (apply nth_error_Some; congruence).
    rewrite (C57_identifiers_partial _ _ _ _ _ Hr Hn). unfold blen in Hl. rewrite N.mod_small by lia. lia. }
  clear Hl. induction Hr as [|is c1 outs i c2 out Hr IH Hs]; [destruct Hin|].
  apply Forall_app in Hf. destruct Hf as [Hf Hi]. apply in_app_or in Hin. destruct Hin as [Hin|Hin]; [auto|].
  inversion Hi as [|? ? Hfi _]; subst. eapply step_shape; eauto.
Qed.
Print Assumptions C98_no_forbidden_values_partial.
Example C98_legal_ex : Forall sober ex_history /\ exists c outs, cruns client_new ex_history c outs /\
  blen (request_ids outs) = 3 /\ length (written outs) = 6%nat.
Proof.
  split.
  - unfold ex_history. constructor; [exact I|]. constructor.
    { split; [discriminate|]. split; [intros [E|[E|[E|[]]]]; discriminate|]. split; [intros [E|[E|[E|[]]]]; discriminate|].
      split; [discriminate|constructor]. }
    constructor; [split; intros [E|[]]; discriminate|]. repeat (constructor; [exact I|]). constructor.
  - destruct (crun client_new ex_history) as [[c o]|] eqn:E; [|vm_compute in E; discriminate].
    exists c, o. split; [apply crun_sound, E|]. vm_compute in E. injection E as <- <-. split; vm_compute; reflexivity.
Qed.
(** publish() takes a topic with wildcards; the packet is one that the receiver has to refuse. (For identifier 0, see C57.) *)
Theorem C98_wildcard_topic_refuted : exists c' k bs id,
  cstep client_new (ICommand (CmdPublish (str "a/#"%string) [] AtMostOnce false) true) = Some (c', [Wrote k; Answer (Published (COk id))]) /\
  packet_enc k = Ok bs /\ wire V5 (canon k) bs /\ ~ legal (canon k).
Proof.
  eexists _, _, _, _. split; [reflexivity|]. split; [vm_compute; reflexivity|]. split.
  - refine (packet_conform (publish_request None (str "a/#"%string) [] AtMostOnce false) _ _ _ _ _).
    + vm_compute. reflexivity.
    + vm_compute. discriminate.
    + split; [discriminate|]. split; [apply str_fits; reflexivity|]. split; exact I.
    + constructor.
  - intros (_ & _ & H & _). apply H. cbn. tauto.
Qed.
Print Assumptions C98_wildcard_topic_refuted.
