(** What a step does to the stored sessions and in-flight messages, and to identifiers. *)
From Verif Require Import Base Utf8 Codec SpecCodec Tac Maps CodecFacts Topic SpecTopic TopicFacts Property PacketProps Packets
  TopicTree TreeFacts Storage SpecStorage StorageFacts Broker SpecBroker BrokerFacts Auth Session Server SpecServer SessionFacts
  ServerFacts HandlerFacts HistoryFacts ProvenanceFacts WorldFacts DeliveryFacts.

Lemma authenticated_iff cfg k : authenticated cfg k = true <-> accepts cfg k.
Proof.
  unfold authenticated, accepts. destruct (sv_require_auth cfg); [|tauto]. split.
  - destruct (cl_user_name _) as [u|]; [|discriminate]. destruct (cl_password _) as [p|]; [|discriminate].
    destruct (sv_validator cfg) as [v|]; [|discriminate]. intros H. right. exists u, p, v. auto.
  - intros [H|(u & p & v & -> & -> & -> & H)]; [discriminate|exact H].
Qed.
Lemma authenticated_not cfg k : authenticated cfg k = false <-> ~ accepts cfg k.
Proof. rewrite <- authenticated_iff. destruct (authenticated cfg k); split; congruence. Qed.

Lemma final_id_eq k u : final_id k u = identifier k u.
Proof. reflexivity. Qed.

(** ** Identifiers *)
Lemma change_id am w e s s' : change am w e s s' -> not_first e -> se_client_id s' = se_client_id s.
Proof.
  intros H Hf. destruct H; auto.
  - exfalso. eapply Hf. reflexivity.
  - apply process_store in H1. apply H1.
  - apply process_store in H1. apply H1.
  - unfold process_outgoing in H0. repeat case_match; inv H0; reflexivity.
Qed.
Lemma accepted_id cfg c k u w w' o i subs wl infl s s1 : accepted cfg c k u w w' o i subs wl infl s s1 ->
  se_client_id s1 = final_id k u /\ se_client_id (snd (begin u (resumes k w) s)) = final_id k u.
Proof.
  intros Hac. destruct (entered_connect _ _ _ _ _ _ _ (ac_entered _ _ _ _ _ _ _ _ _ _ _ _ _ Hac)) as [E1 E2].
  pose proof (begin_id u (resumes k w) k s E1 E2) as Hb.
  destruct (ac_restore _ _ _ _ _ _ _ _ _ _ _ _ _ Hac) as (b0 & _ & _ & Hr). apply restore_spec in Hr.
  destruct Hr as (_ & _ & _ & _ & _ & _ & _ & (_ & Hi & _)). rewrite Hi, Hb. auto.
Qed.
Lemma step_ids cfg w e w' o j s' : wf w -> e <> ERestart -> step cfg w e = (w', o) -> nth_error (w_heap w') j = Some s' ->
  (exists s, nth_error (w_heap w) j = Some s /\ se_client_id s' = se_client_id s)
  \/ (exists c k u a, e = EFirst c (Some (Connect k)) u a /\ not_served w c /\ authenticated cfg k = true /\ se_client_id s' = final_id k u
       /\ aget bytes_eqb (client_id k) (w_manager w') = Some j).
Proof.
  intros Hwf He H Hj. assert (Hnf : not_first e \/ exists d k u a, e = EFirst d k u a).
  { destruct e; try (left; intros ? ? ? ?; discriminate). right. eauto. }
  destruct Hnf as [Hnf|(d & k & u & a & ->)].
  - left. destruct (step_manager _ _ _ _ _ He Hnf H) as (_ & Hl & _).
    destruct (nth_error (w_heap w) j) as [s|] eqn:Es.
    + destruct (step_heap _ _ _ _ _ Hwf He H) as (Hh & _). destruct (Hh j s Es) as (s2 & Hs2 & Hch).
      rewrite Hj in Hs2. injection Hs2 as <-. exists s. split; auto. eapply change_id; eauto.
    + apply nth_error_None in Es. assert (j < length (w_heap w'))%nat by (eapply nth_error_lt; eauto). lia.
  - destruct (first_cases _ _ _ _ _ _ _ _ Hwf H) as [(-> & _)|[(q & i & subs & wl & infl & s & s1 & -> & -> & Hn & Ha & Hac)|(q & i & s & -> & -> & Hn & Ha & Hac)]].
    + left. eauto.
    + destruct (Nat.eq_dec j i) as [->|Hne].
      * right. exists d, q, u, true. split; auto. split; auto. split; auto.
        pose proof (ac_session _ _ _ _ _ _ _ _ _ _ _ _ _ Hac) as Hx. rewrite Hj in Hx. injection Hx as ->.
        destruct (accepted_id _ _ _ _ _ _ _ _ _ _ _ _ _ Hac) as [Hid _].
        split; [destruct wl; simpl; exact Hid|]. rewrite (ac_manager _ _ _ _ _ _ _ _ _ _ _ _ _ Hac). apply aget_put_same, beqb_spec.
      * left. exists s'. split; auto.
        assert (Hlt : (j < length (w_heap w'))%nat) by (eapply nth_error_lt; eauto).
        rewrite (ac_length _ _ _ _ _ _ _ _ _ _ _ _ _ Hac) in Hlt.
        assert (Hil : (i <= length (w_heap w))%nat).
        { destruct (ac_entered _ _ _ _ _ _ _ _ _ _ _ _ _ Hac) as [s0 _ Hm _|]; [|lia]. apply (proj1 Hwf) in Hm. lia. }
        rewrite <- Hj. symmetry. apply (ac_others _ _ _ _ _ _ _ _ _ _ _ _ _ Hac); auto. lia.
    + destruct (Nat.eq_dec j i) as [->|Hne].
      * right. exists d, q, u, false. split; auto. split; auto. split; auto.
        pose proof (un_session _ _ _ _ _ _ _ _ Hac) as Hx. rewrite Hj in Hx. injection Hx as ->.
        destruct (un_entered _ _ _ _ _ _ _ _ Hac) as (subs & wl & infl & Hen).
        destruct (entered_connect _ _ _ _ _ _ _ Hen) as [E1 E2]. split; [apply begin_id; auto|].
        rewrite (un_manager _ _ _ _ _ _ _ _ Hac). apply aget_put_same, beqb_spec.
      * left. exists s'. split; auto.
        assert (Hlt : (j < length (w_heap w'))%nat) by (eapply nth_error_lt; eauto).
        rewrite (un_length _ _ _ _ _ _ _ _ Hac) in Hlt.
        assert (Hil : (i <= length (w_heap w))%nat).
        { destruct (un_entered _ _ _ _ _ _ _ _ Hac) as (subs & wl & infl & [s0 _ Hm _|]); [|lia]. apply (proj1 Hwf) in Hm. lia. }
        rewrite <- Hj. symmetry. apply (un_others _ _ _ _ _ _ _ _ Hac); auto. lia.
Qed.

(** ** Stored sessions *)
Lemma connect_sessions k subs s w : ms_sessions (connect_store k subs s w) =
  aput bytes_eqb (se_client_id s) (Mk_session_state (se_client_id s) subs false)
    (if cf_clean_start (c_flags k) then adel bytes_eqb (client_id k) (ms_sessions (w_store w)) else ms_sessions (w_store w)).
Proof. unfold connect_store, client_id. destruct (se_will s), (cf_clean_start (c_flags k)); reflexivity. Qed.
Lemma connect_inflight k subs s w : ms_inflight (connect_store k subs s w) = ms_inflight (w_store w).
Proof. unfold connect_store. destruct (se_will s), (cf_clean_start (c_flags k)); reflexivity. Qed.

Lemma step_sessions cfg w e w' o : wf w -> step cfg w e = (w', o) ->
  ms_sessions (w_store w') = ms_sessions (w_store w)
  \/ (exists c k u i subs wl infl s s1, e = EFirst c (Some (Connect k)) u true /\ not_served w c /\ authenticated cfg k = true
        /\ accepted cfg c k u w w' o i subs wl infl s s1)
  \/ (exists c k u i s, e = EFirst c (Some (Connect k)) u false /\ not_served w c /\ authenticated cfg k = true /\ unwritten c k u w w' o i s)
  \/ (exists c k i s s', e = EPacket c k /\ is_subscription_change k = true /\ serves w c i s /\ nth_error (w_heap w') i = Some s'
        /\ se_client_id s' = se_client_id s
        /\ ms_sessions (w_store w') = aput bytes_eqb (se_client_id s) (Mk_session_state (se_client_id s) (subscription_filters s') false) (ms_sessions (w_store w))).
Proof.
  intros Hwf H. pose proof (step_inv _ _ _ _ _ H) as Hs.
  destruct Hs as [(-> & -> & Hid)|[(c&k&Ee&Hn&Hk&->&_)|[(c&k&u&a&->&Hn&Hc)|[(c&i&s&d&->&[Hc Hi]&->&_)|[(c&i&s&k&->&Hs&Hk&Hp)|[(c&i&s&f&->&Hs&Hp)|[(c&i&s&->&[Hc Hi]&->&_)|[(c&i&s&->&[Hc Hi]&->&_)|(->&->&_)]]]]]]]]; auto.
  - destruct (first_cases _ _ _ _ _ _ _ _ Hwf H) as [(-> & _)|[(q & i & subs & wl & infl & s & s1 & Eq & -> & _ & Ha & Hac)|(q & i & s & Eq & -> & _ & Ha & Hac)]]; auto;
      injection Eq as <-.
    + right. left. exists c, k, u, i, subs, wl, infl, s, s1. auto.
    + right. right. left. exists c, k, u, i, s. auto.
  - left. assert (Hx : nth_error (w_heap (put_session i (set_will None s) w)) i = Some (set_will None s)) by (eapply put_same; eauto).
    unfold disconnect_step.
    destruct (end_store c i (set_store (mem_delete_will (se_client_id s) (w_store (put_session i (set_will None s) w)))
       (put_session i (set_will None s) w)) _ Hx) as (H1 & _). rewrite H1. reflexivity.
  - unfold packet_step in Hp.
    destruct (process_incoming (sv_manager cfg) k s (w_broker w)) as [[r s1] b1] eqn:Ep.
    destruct (process_store _ _ _ _ _ _ _ Ep) as (P1 & P2 & P3 & P4).
    assert (Hi1 : nth_error (w_heap (put_session i s1 (set_broker b1 w))) i = Some s1) by (eapply put_same; simpl; apply Hs).
    destruct r as [x|er|].
    + injection Hp as <- <-. destruct (is_subscription_change k) eqn:Ek.
      * right. right. right. exists c, k, i, s, s1. split; auto. split; auto. split; auto.
        destruct k; try discriminate; simpl; (split; [exact Hi1|]); (split; [exact P4|]);
          unfold w_store; simpl; rewrite P1, P4; reflexivity.
      * left. destruct (inflight_completed k); unfold w_store; simpl; [|exact P1].
        unfold mem_remove_inflight. destruct (aget _ _ _); simpl; exact P1.
    + injection Hp as <- <-. left. destruct (end_store c i _ _ Hi1) as (H1 & _). rewrite H1. exact P1.
    + injection Hp as <- <-. left. exact P1.
  - left. unfold out_step in Hp. destruct (process_outgoing f s (w_broker w)) as [[r s1]|]; [|inv Hp; auto].
    destruct r as [p|er|]; injection Hp as <- <-; try reflexivity.
    destruct (pb_packet_id p); [destruct (pb_qos p)|]; reflexivity.
  - left. destruct (end_store c i w s Hi) as (H1 & _). exact H1.
Qed.

(** ** Stored in-flight messages *)
Lemma step_inflight cfg w e w' o : wf w -> step cfg w e = (w', o) ->
  ms_inflight (w_store w') = ms_inflight (w_store w)
  \/ (exists c i s k n, e = EPacket c k /\ inflight_completed k = Some n /\ serves w c i s
        /\ ms_inflight (w_store w') = ms_inflight (mem_remove_inflight (se_client_id s) n (w_store w)))
  \/ (exists c i s f q n, e = EOut c f /\ serves w c i s /\ o = [Sent c (Publish q)] /\ pb_packet_id q = Some n /\ pb_topic q = f
        /\ (pb_qos q = AtLeastOnce \/ pb_qos q = ExactlyOnce)
        /\ ms_inflight (w_store w') = ms_inflight (mem_store_inflight (se_client_id s) n
             (Mk_inflight n (pb_topic q) (pb_payload q) (pb_qos q) (pb_dup q)) (w_store w))).
Proof.
  intros Hwf H. pose proof (step_inv _ _ _ _ _ H) as Hs.
  destruct Hs as [(-> & -> & Hid)|[(c&k&Ee&Hn&Hk&->&_)|[(c&k&u&a&->&Hn&Hc)|[(c&i&s&d&->&[Hc Hi]&->&_)|[(c&i&s&k&->&Hs&Hk&Hp)|[(c&i&s&f&->&Hs&Hp)|[(c&i&s&->&[Hc Hi]&->&_)|[(c&i&s&->&[Hc Hi]&->&_)|(->&->&_)]]]]]]]]; auto.
  - left. destruct (first_cases _ _ _ _ _ _ _ _ Hwf H) as [(-> & _)|[(q & i & subs & wl & infl & s & s1 & Eq & -> & _ & Ha & Hac)|(q & i & s & Eq & -> & _ & Ha & Hac)]]; auto;
      injection Eq as <-.
    + rewrite (ac_store _ _ _ _ _ _ _ _ _ _ _ _ _ Hac). apply connect_inflight.
    + rewrite (un_store _ _ _ _ _ _ _ _ Hac). destruct (cf_clean_start _); reflexivity.
  - left. assert (Hx : nth_error (w_heap (put_session i (set_will None s) w)) i = Some (set_will None s)) by (eapply put_same; eauto).
    unfold disconnect_step.
    destruct (end_store c i (set_store (mem_delete_will (se_client_id s) (w_store (put_session i (set_will None s) w)))
       (put_session i (set_will None s) w)) _ Hx) as (_ & H1 & _). rewrite H1. reflexivity.
  - unfold packet_step in Hp.
    destruct (process_incoming (sv_manager cfg) k s (w_broker w)) as [[r s1] b1] eqn:Ep.
    destruct (process_store _ _ _ _ _ _ _ Ep) as (P1 & P2 & P3 & P4).
    assert (Hi1 : nth_error (w_heap (put_session i s1 (set_broker b1 w))) i = Some s1) by (eapply put_same; simpl; apply Hs).
    destruct r as [x|er|].
    + injection Hp as <- <-. destruct (inflight_completed k) as [n|] eqn:Ek.
      * right. left. exists c, i, s, k, n. split; auto. split; auto. split; auto.
        destruct k; try discriminate; unfold w_store; simpl; rewrite P4; unfold mem_remove_inflight; rewrite P3;
          (destruct (aget _ _ _); simpl; auto).
      * left. destruct (is_subscription_change k); exact P3.
    + injection Hp as <- <-. left. destruct (end_store c i _ _ Hi1) as (_ & H1 & _). rewrite H1. exact P3.
    + injection Hp as <- <-. left. exact P3.
  - unfold out_step in Hp. destruct (process_outgoing f s (w_broker w)) as [[r s1]|] eqn:Ep; [|inv Hp; auto].
    destruct r as [p|er|]; try (injection Hp as <- <-; left; reflexivity).
    assert (Hp1 : se_client_id s1 = se_client_id s /\ pb_topic p = f).
    { unfold process_outgoing in Ep. repeat case_match; inv Ep; split; reflexivity. }
    destruct Hp1 as [Hid Hf]. injection Hp as <- <-.
    destruct (pb_packet_id p) as [n|] eqn:En; [|left; reflexivity].
    destruct (pb_qos p) eqn:Eq; try (left; reflexivity); right; right; exists c, i, s, f, p, n;
      (split; [auto|]; split; [auto|]; split; [auto|]; split; [auto|]; split; [auto|]; split; [auto|]);
      unfold w_store; simpl; rewrite Hid, Eq; reflexivity.
  - left. destruct (end_store c i w s Hi) as (_ & H1 & _). exact H1.
Qed.
