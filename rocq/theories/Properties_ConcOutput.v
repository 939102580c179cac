(** Property C113: what the broker writes are packets of the standard, whatever handlers run at the same time.
    Every theorem is followed by a concrete case meeting its hypotheses. *)
From Coq Require Import String.
From Verif Require Import Base Utf8 Codec Str SpecCodec Property SpecProperty PacketProps Packets SpecPackets Frame Tac Maps CodecFacts
  PropertyFacts PacketPropsFacts PacketsFacts PacketsRoundtrip PacketsDefects SpecWire WireConform WireAccept WireDefects ParseFacts FrameFacts
  Topic SpecTopic TopicTree Storage Broker Auth Session Server SpecServer ServerFacts SpecOutput OutputFacts Network SpecNetwork
  Conc SpecConc ConcFacts ConcLocks ConcRoute ConcOwn ConcProv SpecLives ConcLives ConcNet SpecConcNet ConcNetFacts SpecConcOutput ConcOutput
  Examples Properties_Wire Properties_Auth Properties_Format Properties_Output Properties_Conc Properties_Network Properties_Bytes Properties_ConcNet.
Local Open Scope list_scope.

(** C97 for all schedules and all lives of the broker, and without the condition that all clients speak the same version: what is
    written to a connection is a packet of the version that the clients with its identifier speak, but for the packets of
    [exceptional]. Missing: those, and clients that share an identifier and speak different versions (C97_mixed_versions_refuted). *)
Theorem C113_written_packets_conform_partial cfg trs st pre c d k post x v :
  lives cfg trs st -> mruns cfg (conf_on st) (pre ++ IStep c (OOut (Sent d k)) :: post) x ->
  Forall over_network (trs ++ [pre]) -> one_version c v pre -> ~ exceptional v k ->
  d = c /\ exists bs, packet_enc k = Ok bs /\ (blen bs <= max_frame -> wire v (canon k) bs).
Proof.
  intros Hl Hr Hn Hv He. split.
  - assert (Hpre : over_network pre) by (apply Forall_app in Hn; destruct Hn as [_ Hn]; inversion Hn; assumption).
    exact (proj1 (written_at _ _ _ _ _ _ _ _ Hr Hpre)).
  - apply proper_wire; [|exact He]. eapply written_proper; eassumption.
Qed.
Print Assumptions C113_written_packets_conform_partial.
(** The same for a broker that is fed with bytes, whatever they are and whenever they come. *)
Lemma one_version_app c v a b : one_version c v (a ++ b) -> one_version c v a.
Proof. intros H id v' H1 H2. eapply H; [apply came_app, H1|apply bears_version_app, H2]. Qed.
Lemma fed_proper cfg trs st p ms tr n c d k v : lives cfg trs st -> Forall over_network trs -> bruns cfg p (bnet_on st) ms tr n -> genuine (net_part ms) -> one_version c v tr ->
  In (IStep c (OOut (Sent d k))) tr -> d = c /\ proper v k.
Proof.
  intros Hl Hln H Hg Hv Hin. destruct (C112_schedules _ _ _ _ _ H Hg) as (Hr & Hn & _). apply in_split in Hin. destruct Hin as (pre & post & ->).
  assert (Hpre : over_network pre) by (intros e He; apply Hn, in_or_app; auto). apply one_version_app in Hv.
  split; [exact (proj1 (written_at _ _ _ _ _ _ _ _ Hr Hpre))|].
  refine (written_proper cfg trs st pre c d k post _ v Hl Hr _ Hv). apply Forall_app. split; [exact Hln|]. constructor; [exact Hpre|constructor].
Qed.
Theorem C113_fed_with_bytes_partial cfg trs st p ms tr n c d k v : lives cfg trs st -> Forall over_network trs ->
  bruns cfg p (bnet_on st) ms tr n -> genuine (net_part ms) -> one_version c v tr ->
  In (IStep c (OOut (Sent d k))) tr -> ~ exceptional v k ->
  d = c /\ exists bs, packet_enc k = Ok bs /\ (blen bs <= max_frame -> wire v (canon k) bs).
Proof. intros Hl Hln H Hg Hv Hin He. destruct (fed_proper _ _ _ _ _ _ _ _ _ _ _ Hl Hln H Hg Hv Hin) as [-> Hp]. split; [reflexivity|]. apply proper_wire; assumption. Qed.
Print Assumptions C113_fed_with_bytes_partial.

(** What the library of a client of version 5 reads from the bytes that the broker writes to it, if each read ends between two of
    them (C17): these packets, in order. *)
Definition written_to (c : nat) (tr : list item) : list packet :=
  flat_map (fun i => match i with IStep d (OOut (Sent _ k)) => if Nat.eqb d c then [k] else [] | _ => [] end) tr.
Lemma proper_read k : proper V5 k -> ~ exceptional V5 k -> blen (bytes_of k) <= max_frame -> client_sent k (bytes_of k) /\ reads V5 k.
Proof.
  intros Hp He. assert (Ha : forall a, k <> Auth a) by (intros a ->; apply He; exact I).
  destruct (packet_enc_total k (proper_fits V5 k Hp Ha)) as (bs & Hb). unfold bytes_of. rewrite Hb. intros Hm.
  split; [split; [exact Hb|split; [exact Hm|]]|].
  - destruct k; cbn [proper exceptional] in *; try contradiction; (split; [|first [left; exact I|right; reflexivity]]); cbn [wf_packet]; auto.
    + destruct Hp as [_ Hq]. destruct (ca_properties c) as [q|]; [|exact I]. destruct Hq as (u & Hu & ->). cbn. split; [|discriminate].
      change (connack_props_list (assigned_props u)) with [PAssignedClientIdentifier u]. constructor; [exact Hu|constructor].
    + destruct Hp as (H1 & H2 & H3 & H4 & H5). split; auto. split; auto. rewrite H4. split; [|exact I].
      destruct (pb_packet_id b) as [i|]; [destruct (pb_qos b); tauto|]. destruct (pb_qos b); auto; apply He; right; (split; [discriminate|reflexivity]).
    + destruct Hp as (H1 & _ & ->). split; [exact H1|exact I].
    + destruct Hp as (H1 & _ & ->). split; [exact H1|exact I].
    + destruct Hp as (H1 & _ & ->). split; [exact H1|exact I].
    + destruct Hp as (H1 & _ & ->). split; [exact H1|exact I].
    + destruct Hp as (_ & H1 & -> & _). split; [exact H1|]. split; [exact I|]. tauto.
    + destruct Hp as (_ & H1 & ->). split; [exact H1|]. split; [exact I|]. exact He.
  - destruct k; cbn [proper] in Hp; try contradiction; cbn [reads]; auto; destruct Hp as [-> _]; reflexivity.
Qed.
Theorem C113_read_by_the_library_partial cfg trs st p pc ms tr n c groups later : lives cfg trs st -> Forall over_network trs ->
  bruns cfg p (bnet_on st) ms tr n -> genuine (net_part ms) -> one_version c V5 tr ->
  written_to c tr = concat groups ++ later -> Forall (fun g => g <> []) groups ->
  Forall (fun k => ~ exceptional V5 k /\ blen (bytes_of k) <= max_frame) (concat groups) ->
  client_reads pc V5 [] (map (fun g => concat (map bytes_of g)) groups) (map canon (concat groups)) RClosed.
Proof.
  intros Hl Hln H Hg Hv E Hne Hx. pose proof (C17_client_framing_partial pc V5 (map (map (fun k => (k, bytes_of k))) groups)) as Hc17.
  rewrite <- concat_map, map_map, map_map in Hc17. cbn [fst] in Hc17.
  rewrite (map_ext _ (fun g => concat (map bytes_of g))) in Hc17 by (intros g; rewrite paired_bytes; reflexivity). apply Hc17.
  - apply Forall_map. cbn [fst snd]. rewrite Forall_forall in *. intros k Hk. destruct (Hx k Hk) as [H1 H2]. apply proper_read; auto.
    assert (Hin : In k (written_to c tr)) by (rewrite E; apply in_or_app; auto).
    unfold written_to in Hin. apply in_flat_map in Hin. destruct Hin as (i & Hi & Hin). destruct i as [e|d o|d]; try contradiction.
    destruct o as [[d' k'| |]| | | | | | | | | | | | |]; try contradiction. destruct (Nat.eqb_spec d c); [|contradiction]. destruct Hin as [<-|[]]. subst d.
    exact (proj2 (fed_proper _ _ _ _ _ _ _ _ _ _ _ Hl (proj2 (Forall_forall _ _) Hln) H Hg Hv Hi)).
  - apply Forall_map. revert Hne. apply Forall_impl. intros [|k g] Hn; [congruence|discriminate].
Qed.
Print Assumptions C113_read_by_the_library_partial.

(** A subscriber that speaks version 5 and a publisher that speaks version 3.1.1: their handlers run at the same time. *)
Definition hellos (tr : list item) : list (nat * connect_packet) :=
  flat_map (fun i => match i with IStart (EFirst c (Some (Connect k)) _ _) => [(c, k)] | _ => [] end) tr.
Lemma hello_in c k u a tr : In (IStart (EFirst c (Some (Connect k)) u a)) tr -> In (c, k) (hellos tr).
Proof. intros H. unfold hellos. apply in_flat_map. eexists. split; [exact H|]. left. reflexivity. Qed.
Lemma one_version_by c v tr :
  Forall (fun h => fst h = c -> Forall (fun h' => presented (snd h') = presented (snd h) -> c_protocol_version (snd h') = v) (hellos tr)) (hellos tr) ->
  one_version c v tr.
Proof.
  intros H id v' (k & u & a & H1 & <-) (d & k' & u' & a' & H2 & E & <-). apply hello_in in H1, H2. rewrite Forall_forall in H.
  specialize (H _ H1 eq_refl). rewrite Forall_forall in H. exact (H _ H2 E).
Qed.
Definition ex_p3 : list packet := [Connect (ex_connect3 "b" true); Publish (Examples.ex_publish AtLeastOnce (Some 3) false "gone" "x"); PingReq].
Definition ex_two : list bmove :=
  [BNet (NArrive 1 (firstn 20 (ex_bytes ex_s))); BNet (NArrive 2 (firstn 3 (ex_bytes ex_p3)))] ++ bpolls [1; 2]%nat ++
  [BNet (NArrive 2 (skipn 3 (ex_bytes ex_p3)))] ++ bpolls [1; 2]%nat ++ brounds 40 [1; 2]%nat ++
  [BNet (NArrive 1 (skipn 20 (ex_bytes ex_s)))] ++ bpolls [1]%nat ++ brounds 40 [1]%nat ++ bpolls [1; 2]%nat ++ brounds 40 [2; 1]%nat ++
  bpolls [2]%nat ++ [BNet (NOut 1 (str "gone"))] ++ brounds 40 [2; 1]%nat.
Definition ex_two_done : list bmove := snd (fst (bexec ex_open Base.Release ex_two (bnet_on mem_new))).
Definition ex_two_trace : list item := snd (bexec ex_open Base.Release ex_two (bnet_on mem_new)).
Definition ex_two_end : bnet := fst (fst (bexec ex_open Base.Release ex_two (bnet_on mem_new))).
Definition ex_written1 : list packet :=
  [ConnAck (Mk_connack_packet V5 false Success None); SubAck (Mk_suback_packet V5 7 None [GrantedQoS0]);
   Publish (Mk_publish_packet false AtLeastOnce false (str "gone") (Some 3) None (Some (str "x")))].
Lemma written_in c k tr : In k (written_to c tr) -> exists d, In (IStep c (OOut (Sent d k))) tr.
Proof.
  unfold written_to. intros H. apply in_flat_map in H. destruct H as (i & Hi & Hk). destruct i as [e|d o|d]; try contradiction.
  destruct o as [[d' k'| |]| | | | | | | | | | | | |]; try contradiction. destruct (Nat.eqb_spec d c); [|contradiction]. destruct Hk as [<-|[]].
  subst d. exists d'. exact Hi.
Qed.
Example C113_ex : bruns ex_open Base.Release (bnet_on mem_new) ex_two_done ex_two_trace ex_two_end /\ genuine (net_part ex_two_done) /\
  one_version 1 V5 ex_two_trace /\ one_version 2 V3_1_1 ex_two_trace /\
  written_to 1 ex_two_trace = ex_written1 /\ Forall (fun k => ~ exceptional V5 k /\ blen (bytes_of k) <= max_frame) ex_written1 /\
  written_to 2 ex_two_trace = [ConnAck (Mk_connack_packet V3_1_1 false Success None); PubAck (Mk_ack_packet 3 Success None); PingResp] /\
  Forall (fun k => ~ exceptional V3_1_1 k) (written_to 2 ex_two_trace).
Proof.
  split; [apply bexec_runs|]. split; [apply genuine_by; vm_compute; reflexivity|].
  let h := eval vm_compute in (hellos ex_two_trace) in assert (Hh : hellos ex_two_trace = h) by (vm_compute; reflexivity).
  split; [apply one_version_by; rewrite Hh; repeat (apply Forall_cons; [cbn; intros ?; repeat (apply Forall_cons; [cbn; intros; congruence|]); apply Forall_nil|]); apply Forall_nil|].
  split; [apply one_version_by; rewrite Hh; repeat (apply Forall_cons; [cbn; intros ?; repeat (apply Forall_cons; [cbn; intros; congruence|]); apply Forall_nil|]); apply Forall_nil|].
  split; [vm_compute; reflexivity|].
  split; [unfold ex_written1; repeat (apply Forall_cons; [split; [cbn; intuition discriminate|apply N.leb_le; vm_compute; reflexivity]|]); apply Forall_nil|].
  assert (E2 : written_to 2 ex_two_trace = [ConnAck (Mk_connack_packet V3_1_1 false Success None); PubAck (Mk_ack_packet 3 Success None); PingResp])
    by (vm_compute; reflexivity).
  rewrite E2. split; [reflexivity|]. repeat (apply Forall_cons; [cbn; intuition (discriminate || congruence)|]). apply Forall_nil.
Qed.
(** The library of the subscriber reads them in two reads. *)
Example C113_ex_read : client_reads Base.Release V5 [] [bytes_of (ConnAck (Mk_connack_packet V5 false Success None));
    concat (map bytes_of (skipn 1 ex_written1))] (map canon ex_written1) RClosed.
Proof.
  destruct C113_ex as (H1 & H2 & H3 & _ & H4 & H5 & _).
  pose proof (C113_read_by_the_library_partial _ _ _ _ Base.Release _ _ _ 1%nat [firstn 1 ex_written1; skipn 1 ex_written1] [] (lv_none _) (Forall_nil _) H1 H2 H3) as H.
  cbn [concat] in H. rewrite !app_nil_r, firstn_skipn in H. specialize (H H4).
  assert (Hne : Forall (fun g : list packet => g <> []) [firstn 1 ex_written1; skipn 1 ex_written1]) by (apply Forall_cons; [discriminate|apply Forall_cons; [discriminate|apply Forall_nil]]).
  specialize (H Hne H5). cbn [map firstn concat ex_written1] in H. rewrite app_nil_r in H. exact H.
Qed.
Lemma over_network_app tr pre post : tr = pre ++ post -> over_network tr -> Forall over_network [tr; pre].
Proof. intros -> H. apply Forall_cons; [exact H|]. apply Forall_cons; [|apply Forall_nil]. intros e He. apply H, in_or_app. left. exact He. Qed.
(** Two lives, and the general theorem: connection 1 of the second life. *)
Example C113_ex_lives : exists pre d k post, ex_two_trace = pre ++ IStep 1 (OOut (Sent d k)) :: post /\
  lives ex_open [ex_two_trace] (w_store (cn_world (bn_conf ex_two_end))) /\ Forall over_network [ex_two_trace; pre] /\ one_version 1 V5 pre /\
  k = Publish (Mk_publish_packet false AtLeastOnce false (str "gone") (Some 3) None (Some (str "x"))) /\ ~ exceptional V5 k.
Proof.
  destruct C113_ex as (H1 & H2 & H3 & _ & H4 & H5 & _).
  assert (Hin : In (nth 2 ex_written1 PingResp) (written_to 1 ex_two_trace)) by (rewrite H4; right; right; left; reflexivity).
  apply written_in in Hin. destruct Hin as (d & Hin). destruct (in_split _ _ Hin) as (pre & post & E).
  destruct (C112_schedules _ _ _ _ _ H1 H2) as (Hr & Hn & _).
  exists pre, d, (nth 2 ex_written1 PingResp), post. split; [exact E|].
  split; [exact (lv_more _ [] _ _ _ (lv_none _) Hr (network_texts _ Hn))|].
  split; [exact (over_network_app _ _ _ E Hn)|].
  rewrite E in H3. split; [exact (one_version_app _ _ _ _ H3)|].
  split; [reflexivity|]. cbn. intuition discriminate.
Qed.
