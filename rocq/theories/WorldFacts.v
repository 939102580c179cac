(** What a CONNECT does to the world, and which events leave manager and connections alone. *)
From Verif Require Import Base Utf8 Codec SpecCodec Tac Maps CodecFacts Topic SpecTopic TopicFacts Property PacketProps Packets
  TopicTree TreeFacts Storage SpecStorage StorageFacts Broker SpecBroker BrokerFacts Auth Session Server SpecServer SessionFacts
  ServerFacts HandlerFacts HistoryFacts ProvenanceFacts.

Definition client_id (k : connect_packet) : bytes := cl_client_id (c_payload k).
(** The identifier a session has after a CONNECT. *)
Definition final_id (k : connect_packet) (u : bytes) : bytes :=
  match client_id k with [] => u | x => x end.

Lemma begin_id u r k s : se_connect s = k -> se_client_id s = client_id k -> se_client_id (snd (begin u r s)) = final_id k u.
Proof.
  intros H1 H2. unfold begin, final_id. rewrite H1. unfold client_id in *. destruct (cl_client_id (c_payload k)) eqn:E; simpl; congruence.
Qed.
Lemma entered_connect k w i subs wl infl s : entered k w i subs wl infl s -> se_connect s = k /\ se_client_id s = client_id k.
Proof. intros []; auto. Qed.

(** Everything an accepted CONNECT does. *)
Record accepted (cfg : config) (c : nat) (k : connect_packet) (u : bytes) (w w' : world) (o : list output)
    (i : nat) (subs : list bytes) (wl : option will) (infl : list inflight) (s s1 : session) : Prop := {
  ac_entered : entered k w i subs wl infl s;
  ac_restore : exists b0, bk_tree b0 = bk_tree (w_broker w) /\ bk_store b0 = connect_store k subs (snd (begin u (resumes k w) s)) w
     /\ restore_subscriptions subs (snd (begin u (resumes k w) s)) b0 = (s1, w_broker w');
  ac_out : o = Sent c (fst (begin u (resumes k w) s)) :: map (fun i => Sent c (Publish (retry_publish i))) infl;
  ac_conns : w_conns w' = aput Nat.eqb c i (w_conns w);
  ac_manager : w_manager w' = aput bytes_eqb (client_id k) i
     (if cf_clean_start (c_flags k) then adel bytes_eqb (client_id k) (w_manager w) else w_manager w);
  ac_session : nth_error (w_heap w') i = Some (match wl with Some x => set_will (Some x) s1 | None => s1 end);
  ac_others : forall j, j <> i -> (j < length (w_heap w))%nat -> nth_error (w_heap w') j = nth_error (w_heap w) j;
  ac_length : length (w_heap w') = Nat.max (length (w_heap w)) (S i);
  ac_store : w_store w' = connect_store k subs (snd (begin u (resumes k w) s)) w
}.
Lemma connect_accept cfg c k u w w' o : wf w -> not_served w c -> authenticated cfg k = true ->
  step cfg w (EFirst c (Some (Connect k)) u true) = (w', o) ->
  exists i subs wl infl s s1, accepted cfg c k u w w' o i subs wl infl s s1.
Proof.
  intros Hwf Hn Ha H. simpl in H. red in Hn. rewrite Hn in H. simpl in H. unfold connect_step in H. rewrite Ha in H. simpl in H.
  destruct (start_session u true k w) as [[ack r] w1] eqn:E.
  destruct (start_session_spec _ _ _ _ _ _ _ Hwf E) as (i & subs & wl & infl & s & He & Hack & Hr & Hnn & Ho & Hl & Hm & Hc & Ht & Hst).
  subst r. simpl in H. rewrite Hnn in H.
  destruct (restore_subscriptions subs (snd (begin u (resumes k w) s)) (w_broker w1)) as [s1 b1] eqn:Er.
  injection H as <- <-. exists i, subs, wl, infl, s, s1. split; simpl.
  - exact He.
  - exists (w_broker w1). auto.
  - rewrite Hack. reflexivity.
  - rewrite Hc. reflexivity.
  - exact Hm.
  - apply list_set_same. rewrite Hl. lia.
  - intros j Hj Hlt. rewrite list_set_other by auto. auto.
  - rewrite list_set_length. exact Hl.
  - unfold w_store. simpl. apply restore_spec in Er. destruct Er as (_ & _ & -> & _). exact Hst.
Qed.
(** A CONNECT whose CONNACK could not be written. *)
Record unwritten (c : nat) (k : connect_packet) (u : bytes) (w w' : world) (o : list output) (i : nat) (s : session) : Prop := {
  un_entered : exists subs wl infl, entered k w i subs wl infl s;
  un_out : o = [Closed c];
  un_conns : w_conns w' = w_conns w;
  un_manager : w_manager w' = aput bytes_eqb (client_id k) i
     (if cf_clean_start (c_flags k) then adel bytes_eqb (client_id k) (w_manager w) else w_manager w);
  un_session : nth_error (w_heap w') i = Some (snd (begin u (resumes k w) s));
  un_others : forall j, j <> i -> (j < length (w_heap w))%nat -> nth_error (w_heap w') j = nth_error (w_heap w) j;
  un_length : length (w_heap w') = Nat.max (length (w_heap w)) (S i);
  un_tree : bk_tree (w_broker w') = bk_tree (w_broker w);
  un_store : w_store w' = if cf_clean_start (c_flags k)
     then mem_delete_will (client_id k) (mem_delete_session (client_id k) (w_store w)) else w_store w
}.
Lemma connect_unwritten cfg c k u w w' o : wf w -> not_served w c -> authenticated cfg k = true ->
  step cfg w (EFirst c (Some (Connect k)) u false) = (w', o) ->
  exists i s, unwritten c k u w w' o i s.
Proof.
  intros Hwf Hn Ha H. simpl in H. red in Hn. rewrite Hn in H. simpl in H. unfold connect_step in H. rewrite Ha in H. simpl in H.
  destruct (start_session u false k w) as [[ack r] w1] eqn:E.
  destruct (start_session_spec _ _ _ _ _ _ _ Hwf E) as (i & subs & wl & infl & s & He & Hack & Hr & Hnn & Ho & Hl & Hm & Hc & Ht & Hst).
  subst r. injection H as <- <-. exists i, s. split; simpl; eauto.
Qed.
Lemma connect_reject cfg c k u a w : not_served w c -> authenticated cfg k = false ->
  step cfg w (EFirst c (Some (Connect k)) u a) =
  (w, [Sent c (ConnAck (Mk_connack_packet (c_protocol_version k) false BadUserNameOrPassword None)); Closed c]).
Proof. intros Hn Ha. simpl. red in Hn. rewrite Hn. simpl. unfold connect_step. rewrite Ha. reflexivity. Qed.
Lemma connect_busy cfg c k u a w i : aget Nat.eqb c (w_conns w) = Some i -> step cfg w (EFirst c k u a) = (w, []).
Proof. intros H. simpl. rewrite H. reflexivity. Qed.
Lemma connect_other cfg c k u a w : not_served w c -> (forall p, k <> Some (Connect p)) ->
  step cfg w (EFirst c k u a) = (w, [Closed c]).
Proof. intros H Hk. simpl. red in H. rewrite H. simpl. destruct k as [[]|]; auto. exfalso. eapply Hk. reflexivity. Qed.

(** All ways to open a connection. *)
Lemma first_cases cfg c k u a w w' o : wf w -> step cfg w (EFirst c k u a) = (w', o) ->
  (w' = w /\ forall d, not_served w d -> not_served w' d)
  \/ (exists q i subs wl infl s s1, k = Some (Connect q) /\ a = true /\ not_served w c /\ authenticated cfg q = true
        /\ accepted cfg c q u w w' o i subs wl infl s s1)
  \/ (exists q i s, k = Some (Connect q) /\ a = false /\ not_served w c /\ authenticated cfg q = true /\ unwritten c q u w w' o i s).
Proof.
  intros Hwf H. destruct (aget Nat.eqb c (w_conns w)) as [i|] eqn:Ec.
  - rewrite (connect_busy cfg c k u a w i Ec) in H. inv H. left. auto.
  - assert (Hn : not_served w c) by exact Ec.
    destruct k as [[q| | | | | | | | | | | | | |]|];
      try (rewrite connect_other in H by (auto; discriminate); inv H; left; split; auto; fail).
    destruct (authenticated cfg q) eqn:Ea.
    + right. destruct a.
      * left. destruct (connect_accept _ _ _ _ _ _ _ Hwf Hn Ea H) as (i & subs & wl & infl & s & s1 & Hac).
        exists q, i, subs, wl, infl, s, s1. auto 8.
      * right. destruct (connect_unwritten _ _ _ _ _ _ _ Hwf Hn Ea H) as (i & s & Hac). exists q, i, s. auto 8.
    + rewrite connect_reject in H by auto. inv H. left. auto.
Qed.

(** Other events leave the manager alone and open nothing. *)
Definition not_first (e : event) : Prop := forall c k u a, e <> EFirst c k u a.
Lemma step_manager cfg w e w' o : e <> ERestart -> not_first e -> step cfg w e = (w', o) ->
  w_manager w' = w_manager w /\ length (w_heap w') = length (w_heap w)
  /\ forall c i, aget Nat.eqb c (w_conns w') = Some i -> aget Nat.eqb c (w_conns w) = Some i.
Proof.
  intros He Hf H. apply step_inv in H.
  assert (Hdel : forall c d i, aget Nat.eqb c (adel Nat.eqb d (w_conns w)) = Some i -> aget Nat.eqb c (w_conns w) = Some i).
  { intros c d i. rewrite aget_adel by apply nateqb_spec. destruct (Nat.eqb c d); [discriminate|auto]. }
  destruct H as [(-> & -> & Hid)|[(c&k&Ee&Hn&Hk&->&_)|[(c&k&u&a&->&Hn&H)|[(c&i&s&d&->&[Hc Hi]&->&_)|[(c&i&s&k&->&[Hc Hi]&Hk&H)|[(c&i&s&f&->&[Hc Hi]&H)|[(c&i&s&->&[Hc Hi]&->&_)|[(c&i&s&->&[Hc Hi]&->&_)|(->&_)]]]]]]]];
    [..|congruence]; auto.
  - exfalso. eapply Hf. reflexivity.
  - unfold disconnect_step. rewrite end_manager, end_length, end_conns. simpl. rewrite list_set_length. eauto.
  - unfold packet_step in H. destruct (process_incoming _ _ _ _) as [[r s1] b1]. destruct r as [x|er|]; inv H.
    + destruct (is_subscription_change k), (inflight_completed k); simpl; rewrite list_set_length; auto.
    + rewrite end_manager, end_length, end_conns. simpl. rewrite list_set_length. eauto.
    + simpl. rewrite list_set_length. eauto.
  - unfold out_step in H. destruct (process_outgoing _ _ _) as [[r s1]|]; [|inv H; auto].
    destruct r as [p|er|]; inv H; simpl.
    + destruct (pb_packet_id p); [destruct (pb_qos p)|]; simpl; rewrite list_set_length; auto.
    + rewrite list_set_length. eauto.
    + rewrite list_set_length. eauto.
  - rewrite end_manager, end_length, end_conns. eauto.
  - simpl. eauto.
Qed.

(** ** A connection that has its session for itself *)
(** Connection [c] is the only one served with session [i], which only clients presenting
    [id] can enter. *)
Record unshared (w : world) (c i : nat) (id : bytes) : Prop := {
  us_conn : aget Nat.eqb c (w_conns w) = Some i;
  us_only : forall d, aget Nat.eqb d (w_conns w) = Some i -> d = c;
  us_id : forall x, aget bytes_eqb x (w_manager w) = Some i -> x = id
}.
(** No client presents [id]. *)
Definition presents (e : event) (id : bytes) : Prop :=
  exists c k u a, e = EFirst c (Some (Connect k)) u a /\ client_id k = id.

Lemma unshared_step cfg w e w' o c i id : wf w -> e <> ERestart -> ~ presents e id -> step cfg w e = (w', o) ->
  unshared w c i id -> unshared w' c i id \/ not_served w' c.
Proof.
  intros Hwf He Hp H [U1 U2 U3]. assert (Hlt : (i < length (w_heap w))%nat) by (eapply (proj2 Hwf); eauto).
  assert (Hnf : not_first e \/ exists d k u a, e = EFirst d k u a).
  { destruct e; try (left; intros ? ? ? ?; discriminate). right. eauto. }
  destruct Hnf as [Hnf|(d & k & u & a & ->)].
  - destruct (step_manager _ _ _ _ _ He Hnf H) as (Hm & _ & Hc).
    destruct (aget Nat.eqb c (w_conns w')) as [j|] eqn:Ec; [left|right; exact Ec].
    assert (Hj := Hc _ _ Ec). rewrite U1 in Hj. injection Hj as <-. split; auto.
    + intros x. rewrite Hm. auto.
  - destruct (first_cases _ _ _ _ _ _ _ _ Hwf H) as [(-> & _)|[(q & j & subs & wl & infl & s & s1 & -> & -> & Hn & Ha & Hac)|(q & j & s & -> & -> & Hn & Ha & Hac)]].
    + left. split; auto.
    + left.
      assert (Hdc : d <> c) by (intros ->; red in Hn; congruence).
      assert (Hpid : client_id q <> id) by (intros E; apply Hp; exists d, q, u, true; auto).
      assert (Hji : j <> i).
      { intros ->. destruct (ac_entered _ _ _ _ _ _ _ _ _ _ _ _ _ Hac) as [s0 _ Hm _|subs wl infl Hl].
        - apply U3 in Hm. auto.
        - lia. }
      destruct Hac as [_ _ _ Hcn Hm _ _ _ _]. split.
      * rewrite Hcn, aget_put_other by (auto using nateqb_spec). exact U1.
      * intros x. rewrite Hcn, aget_aput by apply nateqb_spec. destruct (Nat.eqb x d); [intros E; congruence|auto].
      * intros x. rewrite Hm, aget_aput by apply beqb_spec. destruct (bytes_eqb x (client_id q)); [intros E; congruence|].
        destruct (cf_clean_start (c_flags q)); auto. rewrite aget_adel by apply beqb_spec. destruct (bytes_eqb x _); [discriminate|auto].
    + left. assert (Hpid : client_id q <> id) by (intros E; apply Hp; exists d, q, u, false; auto).
      assert (Hji : j <> i).
      { intros ->. destruct (un_entered _ _ _ _ _ _ _ _ Hac) as (subs & wl & infl & [s0 _ Hm _|? ? ? Hl]).
        - apply U3 in Hm. auto.
        - lia. }
      destruct Hac as [_ _ Hcn Hm _ _ _ _ _]. rewrite <- Hcn in U1, U2. split; auto.
      intros x. rewrite Hm, aget_aput by apply beqb_spec. destruct (bytes_eqb x (client_id q)); [intros E; congruence|].
      destruct (cf_clean_start (c_flags q)); auto. rewrite aget_adel by apply beqb_spec. destruct (bytes_eqb x _); [discriminate|auto].
Qed.

(** An accepted CONNECT that gets a new session has it for itself. *)
Definition injective_manager (w : world) : Prop :=
  forall x y i, aget bytes_eqb x (w_manager w) = Some i -> aget bytes_eqb y (w_manager w) = Some i -> x = y.
Lemma unshared_new cfg c k u w w' o i subs wl infl s s1 : wf w -> accepted cfg c k u w w' o i subs wl infl s s1 ->
  (length (w_heap w) <= i)%nat -> unshared w' c i (client_id k).
Proof.
  intros [W1 W2] Hac Hi. destruct Hac as [_ _ _ Hcn Hm _ _ _ _]. split.
  - rewrite Hcn. apply aget_put_same, nateqb_spec.
  - intros d. rewrite Hcn, aget_aput by apply nateqb_spec. destruct (Nat.eqb d c) eqn:E; [intros _; apply Nat.eqb_eq, E|].
    intros H. apply W2 in H. lia.
  - intros x. rewrite Hm, aget_aput by apply beqb_spec. destruct (bytes_eqb x (client_id k)) eqn:E; [intros _; apply beqb_spec, E|].
    destruct (cf_clean_start (c_flags k)); [rewrite aget_adel by apply beqb_spec; destruct (bytes_eqb x _); [discriminate|]|];
      intros H; apply W1 in H; lia.
Qed.
Lemma injective_step cfg w e w' o : wf w -> injective_manager w -> step cfg w e = (w', o) -> injective_manager w'.
Proof.
  intros Hwf Hi H. assert (Hev : e = ERestart \/ e <> ERestart) by (destruct e; auto; right; discriminate).
  destruct Hev as [->|He]; [simpl in H; inv H; intros x y i Hx; discriminate|].
  assert (Hput : forall k j, (forall x, aget bytes_eqb x (w_manager w) = Some j -> x = client_id k) ->
     w_manager w' = aput bytes_eqb (client_id k) j (if cf_clean_start (c_flags k) then adel bytes_eqb (client_id k) (w_manager w) else w_manager w) ->
     injective_manager w').
  { intros k j Hj Hm x y i. rewrite Hm, !aget_aput by apply beqb_spec.
    assert (Hd : forall x, aget bytes_eqb x (if cf_clean_start (c_flags k) then adel bytes_eqb (client_id k) (w_manager w) else w_manager w) = Some i ->
        aget bytes_eqb x (w_manager w) = Some i).
    { intros z. destruct (cf_clean_start (c_flags k)); auto. rewrite aget_adel by apply beqb_spec. destruct (bytes_eqb z _); [discriminate|auto]. }
    destruct (bytes_eqb x (client_id k)) eqn:Ex, (bytes_eqb y (client_id k)) eqn:Ey; rewrite ?beqb_spec in *.
    - congruence.
    - intros E1 E2. injection E1 as ->. apply Hd in E2. apply Hj in E2. congruence.
    - intros E1 E2. injection E2 as ->. apply Hd in E1. apply Hj in E1. congruence.
    - intros E1 E2. eauto. }
  assert (Hent : forall k i subs wl infl s, entered k w i subs wl infl s -> forall x, aget bytes_eqb x (w_manager w) = Some i -> x = client_id k).
  { intros k i subs wl infl s Hen x Hx. destruct Hen as [s0 _ Hm _|? ? ? Hl].
    - eapply Hi; eauto.
    - apply (proj1 Hwf) in Hx. lia. }
  assert (Hnf : not_first e \/ exists d k u a, e = EFirst d k u a).
  { destruct e; try (left; intros ? ? ? ?; discriminate). right. eauto. }
  destruct Hnf as [Hnf|(d & k & u & a & ->)].
  - destruct (step_manager _ _ _ _ _ He Hnf H) as (Hm & _ & Hc). intros x y i. rewrite Hm. apply Hi.
  - destruct (first_cases _ _ _ _ _ _ _ _ Hwf H) as [(-> & _)|[(q & j & subs & wl & infl & s & s1 & -> & -> & Hn & Ha & Hac)|(q & j & s & -> & -> & Hn & Ha & Hac)]]; auto.
    + destruct Hac. eapply Hput; eauto.
    + destruct Hac as [(subs & wl & infl & Hen)]. eapply Hput; eauto.
Qed.
Lemma injective_run cfg es : forall w, wf w -> injective_manager w -> injective_manager (fst (run cfg es w)).
Proof.
  induction es as [|e es IH]; intros w Hw Hi; [exact Hi|]. rewrite run_cons. cbn [fst].
  destruct (step cfg w e) as [w1 o1] eqn:E. cbn [fst]. apply IH.
  - eapply step_wf; eauto.
  - eapply injective_step; eauto.
Qed.
Lemma reachable_injective cfg w : reachable cfg w -> injective_manager w.
Proof. intros [es <-]. apply injective_run; [apply wf_new|intros x y i H; discriminate]. Qed.

(** ** Which sessions an event can touch *)
Lemma step_other_session cfg w e w' o j : wf w -> e <> ERestart -> step cfg w e = (w', o) ->
  (j < length (w_heap w))%nat ->
  (forall c k, e = EPacket c k -> aget Nat.eqb c (w_conns w) <> Some j) ->
  (forall c f, e = EOut c f -> aget Nat.eqb c (w_conns w) <> Some j) ->
  (forall c, e = EEnd c -> aget Nat.eqb c (w_conns w) <> Some j) ->
  (forall id, presents e id -> aget bytes_eqb id (w_manager w) <> Some j) ->
  nth_error (w_heap w') j = nth_error (w_heap w) j.
Proof.
  intros Hwf He H Hj H1 H2 H3 H4. pose proof (step_inv _ _ _ _ _ H) as Hs.
  destruct Hs as [(-> & -> & Hid)|[(c&k&Ee&Hn&Hk&->&_)|[(c&k&u&a&->&Hn&Hc)|[(c&i&s&d&->&[Hc Hi]&->&_)|[(c&i&s&k&->&Hs&Hk&Hp)|[(c&i&s&f&->&Hs&Hp)|[(c&i&s&->&[Hc Hi]&->&_)|[(c&i&s&->&[Hc Hi]&->&_)|(->&_)]]]]]]]];
    [..|congruence]; auto.
  - assert (Hji : forall i subs wl infl s, entered k w i subs wl infl s -> j <> i).
    { intros i subs wl infl s Hen ->. destruct Hen as [s0 _ Hm _|? ? ? Hl]; [|lia].
      apply (H4 (client_id k)) in Hm; auto. exists c, k, u, a. auto. }
    destruct (first_cases _ _ _ _ _ _ _ _ Hwf H) as [(-> & _)|[(q & i & subs & wl & infl & s & s1 & Eq & -> & _ & Ha & Hac)|(q & i & s & Eq & -> & _ & Ha & Hac)]]; auto;
      injection Eq as <-.
    + destruct Hac. eauto.
    + destruct Hac as [(subs & wl & infl & Hen)]. eauto.
  - assert (j <> i) by (intros ->; eapply H1; eauto). unfold disconnect_step. rewrite end_heap_other by auto.
    apply put_other; auto.
  - destruct (packet_heap cfg c i s k w w' o Hwf Hs Hk Hp) as (_ & Hx & _). apply Hx. intros ->. destruct Hs. eapply H1; eauto.
  - destruct (out_heap (sv_manager cfg) c i s f w w' o Hwf Hs Hp) as (_ & Hx & _). apply Hx. intros ->. destruct Hs. eapply H2; eauto.
  - rewrite end_heap_other; auto. intros ->. eapply H3; eauto.
Qed.
