(** What a client finds when it comes back: in memory, or in the store after a restart. *)
From Verif Require Import Base Utf8 Codec SpecCodec Tac Maps CodecFacts Topic SpecTopic TopicFacts Property PacketProps Packets
  TopicTree TreeFacts Storage SpecStorage StorageFacts Broker SpecBroker BrokerFacts Auth Session Server SpecServer SessionFacts
  ServerFacts HandlerFacts HistoryFacts ProvenanceFacts WorldFacts DeliveryFacts StoreFacts ConnectFacts.

Lemma declares_iff k y : will_of_connect k = Some y <-> declares k y.
Proof.
  unfold will_of_connect, declares. destruct (cf_will_flag (c_flags k)); simpl.
  - destruct (cl_will_topic (c_payload k)) as [t|].
    + split; [intros H; injection H as <-; simpl; auto|intros (_ & H1 & H2 & H3 & H4)]. destruct y; simpl in *. congruence.
    + split; [discriminate|intros (_ & H & _); discriminate].
  - split; [discriminate|intros (H & _); discriminate].
Qed.

(** ** The session of an identifier *)
Lemma manager_keep cfg w e w' o id : wf w -> e <> ERestart -> ~ presents e id -> step cfg w e = (w', o) ->
  aget bytes_eqb id (w_manager w') = aget bytes_eqb id (w_manager w).
Proof.
  intros Hwf He Hp H. destruct (is_first e) as [Hnf|(d & k & u & a & ->)].
  { destruct (step_manager _ _ _ _ _ He Hnf H) as (-> & _). reflexivity. }
  assert (Hgen : forall q i, k = Some (Connect q) ->
     w_manager w' = aput bytes_eqb (client_id q) i (if cf_clean_start (c_flags q) then adel bytes_eqb (client_id q) (w_manager w) else w_manager w) ->
     aget bytes_eqb id (w_manager w') = aget bytes_eqb id (w_manager w)).
  { intros q i -> ->. assert (Hne : id <> client_id q) by (intros ->; apply Hp; exists d, q, u, a; auto).
    rewrite aget_put_other by (try apply beqb_spec; auto). destruct (cf_clean_start (c_flags q)); auto.
    apply aget_del_other; [apply beqb_spec|auto]. }
  destruct (first_cases _ _ _ _ _ _ _ _ Hwf H) as [(-> & _)|[(q & i & subs & wl & infl & s & s1 & -> & -> & Hn & Ha & Hac)|(q & i & s & -> & -> & Hn & Ha & Hac)]]; auto.
  - destruct Hac. eauto.
  - destruct Hac. eauto.
Qed.
Lemma avoids_presents id e : avoids id e -> ~ presents e id.
Proof. intros [_ H] (c & k & u & a & -> & Hk). apply (proj1 (H _ _ _ _ eq_refl)). exact Hk. Qed.
Lemma manager_none cfg es : forall w id, wf w -> Forall (avoids id) es -> aget bytes_eqb id (w_manager w) = None ->
  aget bytes_eqb id (w_manager (fst (run cfg es w))) = None.
Proof.
  induction es as [|e es IH]; intros w id Hwf Hav Hm; [exact Hm|]. inversion Hav as [|? ? Ha Hav']; subst.
  rewrite run_cons. cbn [fst]. destruct (step cfg w e) as [w1 o1] eqn:E. cbn [fst]. apply IH; auto.
  - eapply step_wf; eauto.
  - rewrite <- Hm. eapply manager_keep; eauto; [apply Ha|apply avoids_presents, Ha].
Qed.

Record current (w : world) (c i : nat) (id : bytes) : Prop := {
  cu_unshared : unshared w c i id;
  cu_manager : aget bytes_eqb id (w_manager w) = Some i
}.
Lemma current_connect cfg es c k u w' o i subs wl infl s s1 :
  accepted cfg c k u (state cfg es) w' o i subs wl infl s s1 ->
  (cf_clean_start (c_flags k) = true \/ forall d q, opened_by cfg es d q -> presented q <> presented k) ->
  current w' c i (presented k).
Proof.
  intros Hac Hcl. pose proof (state_wf cfg es) as Hwf.
  assert (Hm : aget bytes_eqb (presented k) (w_manager w') = Some i).
  { rewrite (ac_manager _ _ _ _ _ _ _ _ _ _ _ _ _ Hac). apply aget_put_same, beqb_spec. }
  split; auto. pose proof (ac_entered _ _ _ _ _ _ _ _ _ _ _ _ _ Hac) as Hen. inversion Hen as [s0 Hc Hx Hi|? ? ? Hl]; subst.
  - destruct Hcl as [Hcl|Hop]; [congruence|]. destruct (owned_exists cfg es) as [own [O1 O2 _]].
    pose proof (O1 _ _ Hx) as Hoi. destruct Hac as [_ _ _ Hcn Hmm _ _ _ _]. split.
    + rewrite Hcn. apply aget_put_same, nateqb_spec.
    + intros d. rewrite Hcn, aget_aput by apply nateqb_spec. destruct (Nat.eqb d c) eqn:Ed; [intros _; apply Nat.eqb_eq, Ed|].
      intros Hd. exfalso. destruct (O2 _ _ Hd) as (q & Hq & Eq). apply (Hop d q Hq). unfold presented in *. congruence.
    + intros x. rewrite Hmm, aget_aput by apply beqb_spec. destruct (bytes_eqb x (client_id k)) eqn:Eb; [intros _; apply beqb_spec, Eb|].
      destruct (cf_clean_start (c_flags k)); [congruence|]. intros Hy. apply O1 in Hy. unfold presented. congruence.
  - eapply unshared_new; eauto.
Qed.
Lemma current_run cfg es : forall w c i id, wf w -> current w c i id -> ~ In ERestart es -> (forall k u a, ~ In (EFirst c k u a) es) ->
  (forall e, In e es -> ~ presents e id) ->
  current (fst (run cfg es w)) c i id \/ not_served (fst (run cfg es w)) c.
Proof.
  induction es as [|e es IH]; intros w c i id Hwf Hcu Hre Hf Hp; [auto|].
  rewrite run_cons. cbn [fst]. destruct (step cfg w e) as [w1 o1] eqn:E. cbn [fst].
  assert (He : e <> ERestart) by (intros ->; apply Hre; left; reflexivity).
  pose proof (step_wf _ _ _ _ _ Hwf E) as Hwf1.
  destruct Hcu as [Hu Hm]. destruct (unshared_step _ _ _ _ _ _ _ _ Hwf He (Hp e (or_introl eq_refl)) E Hu) as [Hu1|Hn].
  - apply IH; auto.
    + split; auto. rewrite <- Hm. apply (manager_keep cfg w e w1 o1 id Hwf He (Hp e (or_introl eq_refl)) E).
    + intros Hi. apply Hre. right. exact Hi.
    + intros k u a Hi. apply (Hf k u a). right. exact Hi.
    + intros x Hx. apply Hp. right. exact Hx.
  - right. clear - Hn Hf. assert (Hf' : forall k u a, ~ In (EFirst c k u a) es) by (intros k u a Hi; apply (Hf k u a); right; exact Hi). clear Hf.
    revert w1 Hn. induction es as [|x es IH]; intros w1 Hn; [exact Hn|]. rewrite run_cons. cbn [fst].
    destruct (step cfg w1 x) as [w2 o2] eqn:E2. cbn [fst]. apply IH; [intros k u a Hi; apply (Hf' k u a); right; exact Hi|].
    destruct (step_conns _ _ _ _ _ c E2) as [Hc|Hc]; auto; [intros k u a ->; apply (Hf' k u a); left; reflexivity|]. unfold not_served in *. congruence.
Qed.

(** A session nobody is connected to. *)
Record waiting (w : world) (i : nat) (id : bytes) (s : session) : Prop := {
  wa_manager : aget bytes_eqb id (w_manager w) = Some i;
  wa_conns : forall d, aget Nat.eqb d (w_conns w) <> Some i;
  wa_session : nth_error (w_heap w) i = Some s
}.
Lemma waiting_run cfg es : forall w i id s, wf w -> injective_manager w -> waiting w i id s -> ~ In ERestart es ->
  (forall e, In e es -> ~ presents e id) -> waiting (fst (run cfg es w)) i id s.
Proof.
  induction es as [|e es IH]; intros w i id s Hwf Hinj [W1 W2 W3] Hre Hp; [split; auto|].
  rewrite run_cons. cbn [fst]. destruct (step cfg w e) as [w1 o1] eqn:E. cbn [fst].
  assert (He : e <> ERestart) by (intros ->; apply Hre; left; reflexivity).
  pose proof (step_wf _ _ _ _ _ Hwf E) as Hwf1. pose proof (Hp e (or_introl eq_refl)) as Hpe.
  assert (Hlt : (i < length (w_heap w))%nat) by (eapply nth_error_lt; eauto).
  apply IH; auto.
  - exact (injective_step cfg w e w1 o1 Hwf Hinj E).
  - split.
    + rewrite <- W1. eapply manager_keep; eauto.
    + intros d Hd. destruct (is_first e) as [Hnf|(d' & k & u & a & ->)].
      { destruct (step_manager _ _ _ _ _ He Hnf E) as (_ & _ & Hc). apply Hc in Hd. eapply W2; eauto. }
      destruct (first_cases _ _ _ _ _ _ _ _ Hwf E) as [(-> & _)|[(q & j & subs & wl & infl & s0 & s1 & -> & -> & Hn & Ha & Hac)|(q & j & s0 & -> & -> & Hn & Ha & Hac)]].
      * eapply W2; eauto.
      * rewrite (ac_conns _ _ _ _ _ _ _ _ _ _ _ _ _ Hac), aget_aput in Hd by apply nateqb_spec.
        destruct (Nat.eqb d d'); [|eapply W2; eauto]. injection Hd as ->.
        destruct (ac_entered _ _ _ _ _ _ _ _ _ _ _ _ _ Hac) as [s2 _ Hx _|]; [|lia].
        apply Hpe. exists d', q, u, true. split; auto. eapply Hinj; eauto.
      * rewrite (un_conns _ _ _ _ _ _ _ _ Hac) in Hd. eapply W2; eauto.
    + rewrite <- W3. eapply step_other_session; eauto.
      * intros x Hx Hxi. apply Hpe. rewrite <- (Hinj _ _ _ Hxi W1). exact Hx.
  - intros Hi. apply Hre. right. exact Hi.
  - intros x Hx. apply Hp. right. exact Hx.
Qed.

(** ** What the store keeps for an identifier *)
Lemma exclusive_connect cfg es c k u w' o i subs wl infl s s1 :
  accepted cfg c k u (state cfg es) w' o i subs wl infl s s1 -> presented k <> [] -> alone cfg es (presented k) ->
  exclusive w' i (presented k).
Proof.
  intros Hac Hne [Hal Hfr]. pose proof (state_wf cfg es) as Hwf.
  destruct (current_connect _ _ _ _ _ _ _ _ _ _ _ _ _ Hac (or_intror Hal)) as [[U1 U2 U3] Hm].
  destruct (accepted_id _ _ _ _ _ _ _ _ _ _ _ _ _ Hac) as [Hfi _].
  assert (Hf : final_id k u = presented k) by (unfold final_id, presented, client_id in *; destruct (cl_client_id _); congruence).
  split; auto.
  - eexists. split; [apply (ac_session _ _ _ _ _ _ _ _ _ _ _ _ _ Hac)|]. rewrite <- Hf, <- Hfi. destruct wl; reflexivity.
  - intros d j x [Hd Hj] Hx. destruct (Nat.eq_dec j i) as [|Hji]; auto. exfalso.
    rewrite (ac_conns _ _ _ _ _ _ _ _ _ _ _ _ _ Hac), aget_aput in Hd by apply nateqb_spec.
    destruct (Nat.eqb d c) eqn:Ed; [injection Hd as ->; congruence|].
    rewrite (ac_others _ _ _ _ _ _ _ _ _ _ _ _ _ Hac) in Hj; [|auto|eapply (proj2 Hwf); eauto].
    destruct (owned_exists cfg es) as [own [O1 O2 O3]]. destruct (O3 j x Hj) as (d' & q & v & a & Hq & Hq1 & Hq2).
    destruct (O2 d j Hd) as (q' & Hq' & Hq1').
    destruct (presented q) as [|b0 l0] eqn:Ep.
    + unfold identifier in Hq2. rewrite Ep in Hq2. apply (Hfr _ _ _ _ Hq Ep). congruence.
    + apply (Hal d q' Hq'). unfold identifier in Hq2. rewrite Ep in Hq2. congruence.
Qed.

(** Nobody is served under the identifier. *)
Definition unserved (w : world) (id : bytes) : Prop := forall c j s, serves w c j s -> se_client_id s <> id.
Lemma unserved_step cfg w e w' o id : wf w -> avoids id e -> step cfg w e = (w', o) -> unserved w id -> unserved w' id.
Proof.
  intros Hwf [He Hav] H Hun d j x [Hd Hj] Hx.
  destruct (step_ids _ _ _ _ _ _ _ Hwf He H Hj) as [(s0 & Hs0 & Hs1)|(c & k & u & a & -> & Hn & Ha & Hx2 & Hm)].
  - assert (Hcd : (forall k u a, e <> EFirst d k u a) -> aget Nat.eqb d (w_conns w) = Some j).
    { intros Hne. destruct (step_conns _ _ _ _ _ d H Hne) as [Hc|Hc]; unfold not_served in *; congruence. }
    destruct (is_first e) as [Hnf|(d' & k & u & a & ->)].
    { apply (Hun d j s0); [split; [apply Hcd; intros ? ? ? ->; eapply Hnf; reflexivity|auto]|congruence]. }
    destruct (Nat.eq_dec d' d) as [->|Hne].
    2:{ apply (Hun d j s0); [split; [apply Hcd; intros ? ? ? E; inv E; congruence|auto]|congruence]. }
    destruct (first_cases _ _ _ _ _ _ _ _ Hwf H) as [(-> & _)|[(q & i' & subs & wl & infl & s1 & s2 & -> & -> & _ & _ & Hac)|(q & i' & s1 & -> & -> & Hn & _ & Hac)]].
    + apply (Hun d j s0); [split; auto|congruence].
    + destruct (accepted_id _ _ _ _ _ _ _ _ _ _ _ _ _ Hac) as [Hfi _].
      rewrite (ac_conns _ _ _ _ _ _ _ _ _ _ _ _ _ Hac), aget_put_same in Hd by apply nateqb_spec. injection Hd as ->.
      rewrite (ac_session _ _ _ _ _ _ _ _ _ _ _ _ _ Hac) in Hj. injection Hj as <-.
      eapply (proj2 (Hav _ _ _ _ eq_refl)). change (final_id q u = id). rewrite <- Hfi, <- Hx. destruct wl; reflexivity.
    + rewrite (un_conns _ _ _ _ _ _ _ _ Hac) in Hd. unfold not_served in Hn. congruence.
  - eapply (proj2 (Hav _ _ _ _ eq_refl)). change (final_id k u = id). congruence.
Qed.

(** The stored session of [id] changes only by a SUBSCRIBE or UNSUBSCRIBE of a connection
    served under [id]. *)
Lemma stored_session_step cfg w e w' o id : wf w -> avoids id e -> step cfg w e = (w', o) ->
  mem_load_session id (w_store w') = mem_load_session id (w_store w)
  \/ exists c k i s, e = EPacket c k /\ is_subscription_change k = true /\ serves w c i s /\ se_client_id s = id.
Proof.
  intros Hwf [He Hav] H. unfold mem_load_session in *. destruct (step_sessions _ _ _ _ _ Hwf H)
    as [Hs|[(d & q & v & j & subs & wl & infl & s0 & s1 & -> & Hn & Ha & Hac)|[(d & q & v & j & s0 & -> & Hn & Ha & Hac)|(d & q & j & s0 & s1 & -> & Hk & Hsv & Hii & Hidd & Hs)]]].
  - left. rewrite Hs. reflexivity.
  - left. rewrite (ac_store _ _ _ _ _ _ _ _ _ _ _ _ _ Hac), connect_sessions.
    destruct (accepted_id _ _ _ _ _ _ _ _ _ _ _ _ _ Hac) as [_ Hfi]. destruct (Hav _ _ _ _ eq_refl) as [A1 A2].
    rewrite Hfi, aget_put_other by (try apply beqb_spec; intros E; apply A2; symmetry; exact E).
    destruct (cf_clean_start (c_flags q)); auto. apply aget_del_other; [apply beqb_spec|]. intros E. apply A1. symmetry. exact E.
  - left. rewrite (un_store _ _ _ _ _ _ _ _ Hac). destruct (Hav _ _ _ _ eq_refl) as [A1 A2].
    destruct (cf_clean_start (c_flags q)); auto. apply aget_del_other; [apply beqb_spec|]. intros E. apply A1. symmetry. exact E.
  - rewrite Hs, aget_aput by apply beqb_spec. destruct (bytes_eqb id (se_client_id s0)) eqn:Eb; [|auto].
    apply beqb_spec in Eb. right. exists d, q, j, s0. auto.
Qed.
(** The same for the messages in flight: only an acknowledgement or a delivery of a
    connection served under [id]. *)
Lemma stored_inflight_step cfg w e w' o id n : wf w -> step cfg w e = (w', o) ->
  mem_get_inflight id n (w_store w') = mem_get_inflight id n (w_store w)
  \/ (exists c k i s, e = EPacket c k /\ inflight_completed k = Some n /\ serves w c i s /\ se_client_id s = id
        /\ mem_get_inflight id n (w_store w') = None)
  \/ (exists c f i s q, e = EOut c f /\ serves w c i s /\ se_client_id s = id /\ o = [Sent c (Publish q)] /\ pb_packet_id q = Some n).
Proof.
  intros Hwf H. assert (Hg : forall m m', ms_inflight m = ms_inflight m' -> mem_get_inflight id n m = mem_get_inflight id n m')
    by (intros m m' E; unfold mem_get_inflight; rewrite E; reflexivity).
  destruct (step_inflight _ _ _ _ _ Hwf H) as [Hs|[(c & i & s & k & p & -> & Hk & Hsv & Hs)|(c & i & s & f & q & p & -> & Hsv & Ho & Hp & _ & _ & Hs)]].
  - left. apply Hg, Hs.
  - rewrite (Hg _ _ Hs), get_inflight_remove. destruct (bytes_eqb id (se_client_id s)) eqn:Eb; simpl; [|left; apply Hg; reflexivity].
    destruct (N.eqb n p) eqn:En; [|left; apply Hg; reflexivity]. apply beqb_spec in Eb. apply N.eqb_eq in En. subst p. right. left.
    exists c, k, i, s. auto 8.
  - rewrite (Hg _ _ Hs), get_inflight_store. destruct (bytes_eqb id (se_client_id s)) eqn:Eb; simpl; [|left; apply Hg; reflexivity].
    destruct (N.eqb n p) eqn:En; [|left; apply Hg; reflexivity]. apply beqb_spec in Eb. apply N.eqb_eq in En. subst p. right. right.
    exists c, f, i, s, q. auto 8.
Qed.

Lemma unserved_run cfg es : forall w id, wf w -> Forall (avoids id) es -> unserved w id ->
  unserved (fst (run cfg es w)) id /\ mem_load_session id (w_store (fst (run cfg es w))) = mem_load_session id (w_store w)
  /\ forall n, mem_get_inflight id n (w_store (fst (run cfg es w))) = mem_get_inflight id n (w_store w).
Proof.
  induction es as [|e es IH]; intros w id Hwf Hav Hun; [auto|]. inversion Hav as [|? ? Ha Hav']; subst.
  rewrite run_cons. cbn [fst]. destruct (step cfg w e) as [w1 o1] eqn:E. cbn [fst].
  destruct (IH w1 id (step_wf _ _ _ _ _ Hwf E) Hav' (unserved_step _ _ _ _ _ _ Hwf Ha E Hun)) as (I1 & I2 & I3).
  split; auto. split.
  - rewrite I2. destruct (stored_session_step _ _ _ _ _ _ Hwf Ha E) as [Hs|(c & k & i & s & -> & _ & Hs & Hid)]; auto.
    exfalso. eapply Hun; eauto.
  - intros n. rewrite I3. destruct (stored_inflight_step _ _ _ _ _ id n Hwf E) as [Hs|[(c & k & i & s & _ & _ & Hs & Hid & _)|(c & f & i & s & q & _ & Hs & Hid & _)]]; auto;
      exfalso; eapply Hun; eauto.
Qed.

(** ** Coming back after a restart *)
Lemma restart_unserved w id : unserved (restart w) id.
Proof. intros c j s [H _]. discriminate. Qed.
(** The world in which the client [id] comes back. *)
Lemma back_after_restart cfg w id es : wf w -> Forall (avoids id) es ->
  let w2 := fst (run cfg es (restart w)) in
  wf w2 /\ aget bytes_eqb id (w_manager w2) = None
  /\ mem_load_session id (w_store w2) = mem_load_session id (w_store w)
  /\ forall n, mem_get_inflight id n (w_store w2) = mem_get_inflight id n (w_store w).
Proof.
  intros Hwf Hav w2. assert (Hr : wf (restart w)) by apply wf_restart. split; [apply run_wf; auto|].
  split; [apply manager_none; auto|]. apply (unserved_run cfg es (restart w) id Hr Hav). apply restart_unserved.
Qed.
Lemma resume_from_store cfg w c k u w' o : wf w -> not_served w c -> authenticated cfg k = true -> cf_clean_start (c_flags k) = false ->
  aget bytes_eqb (presented k) (w_manager w) = None ->
  step cfg w (EFirst c (Some (Connect k)) u true) = (w', o) ->
  forall st, mem_load_session (presented k) (w_store w) = Some st ->
  exists i s x, serves w' c i s /\ nth_error (w_heap w) i = None
    /\ (forall f, subscribed s f <-> In f (ss_subscriptions st))
    /\ o = Sent c (ConnAck x) :: map (fun i => Sent c (Publish (retry_publish i))) (mem_get_all_inflight (presented k) (w_store w))
    /\ ca_session_present x = true.
Proof.
  intros Hwf Hn Ha Hcl Hm H st Hst. destruct (connect_accept _ _ _ _ _ _ _ Hwf Hn Ha H) as (i & subs & wl & infl & s & s1 & Hac).
  pose proof (ac_entered _ _ _ _ _ _ _ _ _ _ _ _ _ Hac) as Hen. inversion Hen as [s0 Hc Hx Hi|? ? ? Hl Hor _ Hld]; subst.
  { unfold presented in Hm. congruence. }
  destruct (Hld Hcl) as (Hsubs & _ & Hinfl). unfold presented in Hst. rewrite Hst in Hsubs, Hinfl.
  destruct (ac_restore _ _ _ _ _ _ _ _ _ _ _ _ _ Hac) as (b0 & _ & _ & Hr). apply restore_spec in Hr.
  destruct Hr as (R1 & R2 & _).
  eexists. eexists. assert (Hb : exists x, fst (begin u (resumes k w) (session_new k)) = ConnAck x /\ ca_session_present x = true).
  { assert (Hrs : resumes k w = true) by (unfold resumes; rewrite Hcl, Hst; simpl; apply orb_true_r).
    rewrite Hrs. unfold begin. destruct (cl_client_id _); simpl; eexists; split; reflexivity. }
  destruct Hb as (x & Hx & Hx2). exists x. split; [|split; [|split; [|split; [|exact Hx2]]]].
  - split; [rewrite (ac_conns _ _ _ _ _ _ _ _ _ _ _ _ _ Hac); apply aget_put_same, nateqb_spec|apply (ac_session _ _ _ _ _ _ _ _ _ _ _ _ _ Hac)].
  - apply nth_error_None. lia.
  - intros f. assert (Hw : forall y, subscribed (set_will y s1) f <-> subscribed s1 f) by (intros; unfold subscribed; simpl; tauto).
    assert (Hfin : subscribed s1 f <-> In f (ss_subscriptions st)).
    { rewrite subscribed_aget, <- Hsubs. destruct (in_dec (list_eq_dec N.eq_dec) f subs) as [Hin|Hin].
      - rewrite R2 by auto. split; [auto|discriminate].
      - rewrite R1 by auto. assert (Hz : se_subs (snd (begin u (resumes k w) (session_new k))) = []) by (unfold begin; destruct (cl_client_id _); reflexivity).
        rewrite Hz. simpl. split; [congruence|contradiction]. }
    destruct wl; [rewrite Hw|]; exact Hfin.
  - rewrite (ac_out _ _ _ _ _ _ _ _ _ _ _ _ _ Hac), Hx, Hinfl. reflexivity.
Qed.

(** ** Stored and live subscriptions agree *)
Lemma in_store_connect cfg w c k u w' o i subs wl infl s s1 : wf w -> accepted cfg c k u w w' o i subs wl infl s s1 ->
  presented k <> [] -> (cf_clean_start (c_flags k) = true \/ aget bytes_eqb (presented k) (w_manager w) = None) ->
  in_store w' i (presented k).
Proof.
  intros Hwf Hac Hne Hnew. destruct (accepted_id _ _ _ _ _ _ _ _ _ _ _ _ _ Hac) as [_ Hfi].
  assert (Hf : final_id k u = presented k) by (unfold final_id, presented, client_id in *; destruct (cl_client_id _); congruence).
  eexists. eexists. split; [apply (ac_session _ _ _ _ _ _ _ _ _ _ _ _ _ Hac)|].
  split; [unfold mem_load_session; rewrite (ac_store _ _ _ _ _ _ _ _ _ _ _ _ _ Hac), connect_sessions, Hfi, Hf; apply aget_put_same, beqb_spec|].
  cbn [ss_subscriptions]. destruct (ac_restore _ _ _ _ _ _ _ _ _ _ _ _ _ Hac) as (b0 & _ & _ & Hr). apply restore_spec in Hr.
  destruct Hr as (R1 & R2 & _). intros f.
  assert (Hz : se_subs (snd (begin u (resumes k w) s)) = []).
  { pose proof (ac_entered _ _ _ _ _ _ _ _ _ _ _ _ _ Hac) as Hen. inversion Hen as [s0 Hc Hx Hi|? ? ? Hl Hor _ Hld]; subst.
    - unfold presented in Hnew. destruct Hnew; congruence.
    - unfold begin. destruct (cl_client_id _); reflexivity. }
  assert (Hw : forall y, subscribed (set_will y s1) f <-> subscribed s1 f) by (intros; unfold subscribed; simpl; tauto).
  assert (Hfin : In f subs <-> subscribed s1 f).
  { rewrite subscribed_aget. destruct (in_dec (list_eq_dec N.eq_dec) f subs) as [Hin|Hin].
    - rewrite R2 by auto. split; [discriminate|auto].
    - rewrite R1 by auto. rewrite Hz. simpl. split; [contradiction|congruence]. }
  destruct wl; [rewrite Hw|]; exact Hfin.
Qed.
Lemma in_store_change cfg w c i s k w' o : wf w -> serves w c i s -> is_subscription_change k = true ->
  step cfg w (EPacket c k) = (w', o) -> in_store w' i (se_client_id s).
Proof.
  intros Hwf Hs Hk H. pose proof Hs as [Hc Hi]. destruct k; try discriminate; rewrite (step_packet _ _ _ i s) in H by (auto; discriminate); unfold packet_step in H; simpl in H.
  - destruct (handle_subscribe _ s (w_broker w)) as [[r s2] b2] eqn:Eh.
    assert (Hs2 : exists x, r = Ok x /\ se_client_id s2 = se_client_id s).
    { unfold handle_subscribe in Eh. destruct (subscribe_loop _ _ _) as [[rs subs] b3]. inv Eh. eauto. }
    destruct Hs2 as (x & -> & Hid2). injection H as <- <-.
    assert (Hi2 : nth_error (w_heap (put_session i s2 (set_broker b2 w))) i = Some s2) by (eapply put_same; simpl; eauto).
    exists s2. eexists. split; [exact Hi2|]. unfold mem_load_session, w_store. simpl. rewrite <- Hid2, aget_put_same by apply beqb_spec.
    split; [reflexivity|]. intros f. simpl. unfold subscription_filters, subscribed. reflexivity.
  - destruct (handle_unsubscribe _ s) as [r s2] eqn:Eh.
    assert (Hs2 : exists x, r = Ok x /\ se_client_id s2 = se_client_id s).
    { unfold handle_unsubscribe in Eh. destruct (unsubscribe_loop _ _) as [rs subs]. inv Eh. eauto. }
    destruct Hs2 as (x & -> & Hid2). injection H as <- <-.
    assert (Hi2 : nth_error (w_heap (put_session i s2 (set_broker (w_broker w) w))) i = Some s2) by (eapply put_same; simpl; eauto).
    exists s2. eexists. split; [exact Hi2|]. unfold mem_load_session, w_store. simpl. rewrite <- Hid2, aget_put_same by apply beqb_spec.
    split; [reflexivity|]. intros f. simpl. unfold subscription_filters, subscribed. reflexivity.
Qed.
Lemma in_store_run cfg es : forall w i id, wf w -> Forall (avoids id) es -> exclusive w i id -> in_store w i id ->
  exclusive (fst (run cfg es w)) i id /\ in_store (fst (run cfg es w)) i id.
Proof.
  induction es as [|e es IH]; intros w i id Hwf Hav Hex Hin; [auto|]. inversion Hav as [|? ? Ha Hav']; subst.
  rewrite run_cons. cbn [fst]. destruct (step cfg w e) as [w1 o1] eqn:E. cbn [fst].
  apply IH; auto; [eapply step_wf; eauto|eapply exclusive_step; eauto|eapply in_store_step; eauto].
Qed.
Lemma exclusive_run cfg es : forall w i id, wf w -> Forall (avoids id) es -> exclusive w i id -> exclusive (fst (run cfg es w)) i id.
Proof.
  induction es as [|e es IH]; intros w i id Hwf Hav Hex; [auto|]. inversion Hav as [|? ? Ha Hav']; subst.
  rewrite run_cons. cbn [fst]. destruct (step cfg w e) as [w1 o1] eqn:E. cbn [fst].
  apply IH; auto; [eapply step_wf; eauto|eapply exclusive_step; eauto].
Qed.

(** Only [c] can use session [i], now and later, unless the identifier is presented again. *)
Record only_user (w : world) (c i : nat) (id : bytes) : Prop := {
  ou_only : forall d, aget Nat.eqb d (w_conns w) = Some i -> d = c;
  ou_key : forall x, aget bytes_eqb x (w_manager w) = Some i -> x = id;
  ou_lt : (i < length (w_heap w))%nat
}.
Lemma only_user_step cfg w e w' o c i id : wf w -> avoids id e -> step cfg w e = (w', o) -> only_user w c i id -> only_user w' c i id.
Proof.
  intros Hwf Hav E [O1 O2 O3]. pose proof (avoids_presents _ _ Hav) as Hp. destruct Hav as [He _].
  destruct (step_heap _ _ _ _ _ Hwf He E) as (_ & _ & _ & Hlen).
  destruct (is_first e) as [Hnf|(d' & k & u & a & ->)].
  { destruct (step_manager _ _ _ _ _ He Hnf E) as (Hm & _ & Hc). split; [|rewrite Hm; auto|lia]. intros d Hd. auto. }
  destruct (first_cases _ _ _ _ _ _ _ _ Hwf E) as [(-> & _)|[(q & j & subs & wl & infl & s0 & s1 & -> & -> & Hn & Ha & Hac)|(q & j & s0 & -> & -> & Hn & Ha & Hac)]].
  - split; auto.
  - assert (Hji : j <> i).
    { intros ->. destruct (ac_entered _ _ _ _ _ _ _ _ _ _ _ _ _ Hac) as [s2 _ Hx _|]; [|lia]. apply Hp. exists d', q, u, true. split; [reflexivity|apply O2; exact Hx]. }
    split; [| |lia].
    + intros d. rewrite (ac_conns _ _ _ _ _ _ _ _ _ _ _ _ _ Hac), aget_aput by apply nateqb_spec. destruct (Nat.eqb d d'); auto. congruence.
    + intros x. rewrite (ac_manager _ _ _ _ _ _ _ _ _ _ _ _ _ Hac), aget_aput by apply beqb_spec. destruct (bytes_eqb x _); [congruence|].
      destruct (cf_clean_start (c_flags q)); auto. rewrite aget_adel by apply beqb_spec. destruct (bytes_eqb x _); [discriminate|auto].
  - assert (Hji : j <> i).
    { intros ->. destruct (un_entered _ _ _ _ _ _ _ _ Hac) as (? & ? & ? & [s2 _ Hx _|]); [|lia]. apply Hp. exists d', q, u, false. split; [reflexivity|apply O2; exact Hx]. }
    split; [| |lia].
    + intros d. rewrite (un_conns _ _ _ _ _ _ _ _ Hac). auto.
    + intros x. rewrite (un_manager _ _ _ _ _ _ _ _ Hac), aget_aput by apply beqb_spec. destruct (bytes_eqb x _); [congruence|].
      destruct (cf_clean_start (c_flags q)); auto. rewrite aget_adel by apply beqb_spec. destruct (bytes_eqb x _); [discriminate|auto].
Qed.
Lemma current_only w c i id : wf w -> current w c i id -> only_user w c i id.
Proof. intros Hwf [[U1 U2 U3] _]. split; auto. eapply (proj2 Hwf); eauto. Qed.
Lemma only_user_run cfg es : forall w c i id, wf w -> Forall (avoids id) es -> only_user w c i id -> only_user (fst (run cfg es w)) c i id.
Proof.
  induction es as [|e es IH]; intros w c i id Hwf Hav Ho; [auto|]. inversion Hav as [|? ? Ha Hav']; subst.
  rewrite run_cons. cbn [fst]. destruct (step cfg w e) as [w1 o1] eqn:E. cbn [fst].
  apply IH; auto; [eapply step_wf; eauto|eapply only_user_step; eauto].
Qed.

(** As long as the client of [id] does not change its subscriptions, nor does the store. *)
Lemma stored_session_run cfg es : forall w c i id, wf w -> Forall (avoids id) es -> exclusive w i id -> only_user w c i id ->
  (forall k, In (EPacket c k) es -> is_subscription_change k = false) ->
  mem_load_session id (w_store (fst (run cfg es w))) = mem_load_session id (w_store w).
Proof.
  induction es as [|e es IH]; intros w c i id Hwf Hav Hex Ho Hk; [auto|]. inversion Hav as [|? ? Ha Hav']; subst.
  rewrite run_cons. cbn [fst]. destruct (step cfg w e) as [w1 o1] eqn:E. cbn [fst].
  rewrite (IH w1 c i id); auto.
  - destruct (stored_session_step _ _ _ _ _ _ Hwf Ha E) as [Hs|(d & k & j & s & -> & Hkk & Hs & Hid)]; auto. exfalso.
    assert (j = i) by (eapply (ex_only _ _ _ Hex); eauto). subst j.
    assert (d = c) by (eapply (ou_only _ _ _ _ Ho); apply Hs). subst d.
    rewrite (Hk k) in Hkk; [discriminate|left; reflexivity].
  - eapply step_wf; eauto.
  - eapply exclusive_step; eauto.
  - eapply only_user_step; eauto.
  - intros k Hi. apply Hk. right. exact Hi.
Qed.
(** A message in flight stays in the store until it is acknowledged or its identifier is used again. *)
Lemma stored_inflight_run cfg es n : forall w c i id, wf w -> Forall (avoids id) es -> exclusive w i id -> only_user w c i id ->
  (forall k, In (EPacket c k) es -> inflight_completed k <> Some n) ->
  (forall q, In (Sent c (Publish q)) (snd (run cfg es w)) -> pb_packet_id q <> Some n) ->
  mem_get_inflight id n (w_store (fst (run cfg es w))) = mem_get_inflight id n (w_store w).
Proof.
  induction es as [|e es IH]; intros w c i id Hwf Hav Hex Ho Hk Hq; [auto|]. inversion Hav as [|? ? Ha Hav']; subst.
  rewrite run_cons in *. cbn [fst snd] in *. destruct (step cfg w e) as [w1 o1] eqn:E. cbn [fst snd] in *.
  rewrite (IH w1 c i id); auto.
  - assert (Hii : forall d j s, serves w d j s -> se_client_id s = id -> d = c).
    { intros d j s Hs Hid. assert (j = i) by (eapply (ex_only _ _ _ Hex); eauto). subst j. eapply (ou_only _ _ _ _ Ho); apply Hs. }
    destruct (stored_inflight_step _ _ _ _ _ id n Hwf E) as [Hs|[(d & k & j & s & -> & Hkk & Hs & Hid & _)|(d & f & j & s & q & -> & Hs & Hid & -> & Hn)]]; auto; exfalso.
    + rewrite (Hii d j s Hs Hid) in *. apply (Hk k); auto. left. reflexivity.
    + rewrite (Hii d j s Hs Hid) in *. apply (Hq q); auto. apply in_or_app. left. left. reflexivity.
  - eapply step_wf; eauto.
  - eapply exclusive_step; eauto.
  - eapply only_user_step; eauto.
  - intros k Hi. apply Hk. right. exact Hi.
  - intros q Hi. apply Hq. apply in_or_app. right. exact Hi.
Qed.
(** An acknowledged message stays out of the store until its identifier is used again. *)
Lemma no_inflight_run cfg es n : forall w c i id, wf w -> Forall (avoids id) es -> exclusive w i id -> only_user w c i id ->
  mem_get_inflight id n (w_store w) = None ->
  (forall q, In (Sent c (Publish q)) (snd (run cfg es w)) -> pb_packet_id q <> Some n) ->
  mem_get_inflight id n (w_store (fst (run cfg es w))) = None.
Proof.
  induction es as [|e es IH]; intros w c i id Hwf Hav Hex Ho Hno Hq; [auto|]. inversion Hav as [|? ? Ha Hav']; subst.
  rewrite run_cons in *. cbn [fst snd] in *. destruct (step cfg w e) as [w1 o1] eqn:E. cbn [fst snd] in *.
  apply (IH w1 c i id); auto.
  - eapply step_wf; eauto.
  - eapply exclusive_step; eauto.
  - eapply only_user_step; eauto.
  - destruct (stored_inflight_step _ _ _ _ _ id n Hwf E) as [Hs|[(d & k & j & s & -> & Hkk & Hs & Hid & Hx)|(d & f & j & s & q & -> & Hs & Hid & -> & Hn)]]; auto; [congruence|].
    exfalso. assert (j = i) by (eapply (ex_only _ _ _ Hex); eauto). subst j.
    assert (d = c) by (eapply (ou_only _ _ _ _ Ho); apply Hs). subst d. apply (Hq q); auto. left. reflexivity.
  - intros q Hi. apply Hq. apply in_or_app. right. exact Hi.
Qed.
(** A stored session stays. *)
Lemma stored_some_run cfg es : forall w id, wf w -> Forall (avoids id) es ->
  mem_load_session id (w_store w) <> None -> mem_load_session id (w_store (fst (run cfg es w))) <> None.
Proof.
  induction es as [|e es IH]; intros w id Hwf Hav Hs; [auto|]. inversion Hav as [|? ? Ha Hav']; subst.
  rewrite run_cons. cbn [fst]. destruct (step cfg w e) as [w1 o1] eqn:E. cbn [fst]. apply IH; auto; [eapply step_wf; eauto|].
  destruct (stored_session_step _ _ _ _ _ _ Hwf Ha E) as [->|(d & k & j & s & -> & Hkk & Hsv & Hid)]; auto.
  destruct (in_store_change _ _ _ _ _ _ _ _ Hwf Hsv Hkk E) as (s' & st & _ & Hst & _). rewrite Hid in Hst. congruence.
Qed.

(** The manager knows nothing of an identifier not used since the start. *)
Lemma unused_manager cfg id es : unused_since_start id es -> aget bytes_eqb id (w_manager (state cfg es)) = None.
Proof.
  intros (es0 & es1 & -> & H0 & Hav). unfold state. rewrite run_app. cbn [fst]. apply manager_none; auto; [apply run_wf, wf_new|].
  destruct H0 as [->|[p ->]]; [reflexivity|]. rewrite run_snoc. reflexivity.
Qed.

(** A client with an identifier that nobody else has connects. *)
Lemma connect_alone cfg es1 c k u : not_served (state cfg es1) c -> accepts cfg k -> presented k <> [] -> alone cfg es1 (presented k) ->
  let w := state cfg (es1 ++ [EFirst c (Some (Connect k)) u true]) in
  exists i, exclusive w i (presented k) /\ current w c i (presented k)
    /\ mem_load_session (presented k) (w_store w) <> None
    /\ (cf_clean_start (c_flags k) = true \/ unused_since_start (presented k) es1 -> in_store w i (presented k)).
Proof.
  intros Hn Ha Hne Hal w. pose proof (state_wf cfg es1) as Hwf. apply authenticated_iff in Ha.
  destruct (step cfg (state cfg es1) (EFirst c (Some (Connect k)) u true)) as [w1 o1] eqn:E.
  assert (Hw : w = w1) by (unfold w; rewrite state_snoc, E; reflexivity). rewrite Hw.
  destruct (connect_accept _ _ _ _ _ _ _ Hwf Hn Ha E) as (i & subs & wl & infl & s & s1 & Hac). exists i.
  split; [eapply exclusive_connect; eauto|]. split; [eapply current_connect; eauto; right; apply Hal|]. split.
  - destruct (accepted_id _ _ _ _ _ _ _ _ _ _ _ _ _ Hac) as [_ Hfi].
    assert (Hf : final_id k u = presented k) by (unfold final_id, presented, client_id in *; destruct (cl_client_id _); congruence).
    unfold mem_load_session. rewrite (ac_store _ _ _ _ _ _ _ _ _ _ _ _ _ Hac), connect_sessions, Hfi, Hf, aget_put_same by apply beqb_spec. discriminate.
  - intros Hor. eapply in_store_connect; eauto. destruct Hor as [Hcl|Hu]; auto. right. apply unused_manager, Hu.
Qed.
Lemma state_app cfg a b : state cfg (a ++ b) = fst (run cfg b (state cfg a)).
Proof. unfold state. rewrite run_app. reflexivity. Qed.
Lemma state_connect cfg es1 e es2 : state cfg (es1 ++ e :: es2) = fst (run cfg es2 (state cfg (es1 ++ [e]))).
Proof. replace (es1 ++ e :: es2) with ((es1 ++ [e]) ++ es2) by (rewrite <- app_assoc; reflexivity). apply state_app. Qed.
Lemma avoids_run cfg id es w c i : wf w -> Forall (avoids id) es -> only_user w c i id -> exclusive w i id ->
  wf (fst (run cfg es w)) /\ only_user (fst (run cfg es w)) c i id /\ exclusive (fst (run cfg es w)) i id.
Proof. intros. split; [apply run_wf; auto|]. split; [apply only_user_run; auto|apply exclusive_run; auto]. Qed.

Lemma outgoing_id f s b r s' : process_outgoing f s b = Some (r, s') -> se_client_id s' = se_client_id s.
Proof.
  unfold process_outgoing. intros H. destruct (aget bytes_eqb f (se_subs s)) as [st|]; [|discriminate].
  destruct (stream_next _ st) as [[m st']|]; [|discriminate].
  repeat case_match; inv H; reflexivity.
Qed.
Lemma inflight_all id n m z : mem_get_inflight id n m = Some z -> In z (mem_get_all_inflight id m).
Proof.
  unfold mem_get_inflight, mem_get_all_inflight. destruct (aget bytes_eqb id (ms_inflight m)) as [l|]; [|discriminate].
  intros H. apply (aget_in N.eqb N.eqb_eq) in H. unfold avals. apply in_map_iff. exists (n, z). auto.
Qed.
Lemma inflight_absent cfg w id n z : reachable cfg w -> mem_get_inflight id n (w_store w) = None -> if_packet_id z = n ->
  ~ In z (mem_get_all_inflight id (w_store w)).
Proof.
  intros [es <-] Hno Hz Hin. pose proof (run_prov cfg es [] world_new prov_new) as Hp.
  unfold mem_get_inflight, mem_get_all_inflight in *. destruct (aget bytes_eqb id _) as [l|] eqn:El; [|contradiction].
  unfold avals in Hin. apply in_map_iff in Hin. destruct Hin as ([p y] & Ey & Hin). simpl in Ey. subst y.
  destruct (pv_infl _ _ Hp id p z) as [Hpid _]; [exists l; auto|]. apply (aget_none N.eqb N.eqb_eq) in Hno. apply Hno.
  apply in_map_iff. exists (p, z). simpl. split; [congruence|exact Hin].
Qed.
