(** Facts about sessions: handlers seen from the world. *)
From Verif Require Import Base Utf8 Codec SpecCodec Tac Maps CodecFacts Topic SpecTopic TopicFacts Property PacketProps Packets
  TopicTree TreeFacts Storage SpecStorage StorageFacts Broker SpecBroker BrokerFacts Auth Session Server SpecServer.

(** ** Lists indexed by position *)
Lemma list_set_same {A} n (x : A) l : (n < length l)%nat -> nth_error (list_set n x l) n = Some x.
Proof. revert n. induction l as [|y l IH]; intros [|n] H; simpl in *; try lia; auto. apply IH. lia. Qed.
Lemma list_set_other {A} n m (x : A) l : m <> n -> nth_error (list_set n x l) m = nth_error l m.
Proof.
  revert n m. induction l as [|y l IH]; intros [|n] [|m] H; simpl; auto; try congruence.
Qed.
Lemma list_set_length {A} n (x : A) l : length (list_set n x l) = length l.
Proof. revert n. induction l as [|y l IH]; intros [|n]; simpl; auto. Qed.
Lemma nth_error_lt {A} (l : list A) n x : nth_error l n = Some x -> (n < length l)%nat.
Proof. intros H. apply nth_error_Some. congruence. Qed.

Lemma nateqb_spec a b : Nat.eqb a b = true <-> a = b.
Proof. apply Nat.eqb_eq. Qed.

Lemma put_same i s s0 w : nth_error (w_heap w) i = Some s0 -> nth_error (w_heap (put_session i s w)) i = Some s.
Proof. intros H. simpl. apply list_set_same. eapply nth_error_lt; eauto. Qed.
Lemma put_other i j s w : j <> i -> nth_error (w_heap (put_session i s w)) j = nth_error (w_heap w) j.
Proof. intros H. simpl. apply list_set_other. exact H. Qed.

Lemma put_id w c i s : serves w c i s -> put_session i s (set_broker (w_broker w) w) = w.
Proof.
  intros [_ Hi]. assert (Hls : forall (l : list session) n, nth_error l n = Some s -> list_set n s l = l).
  { induction l as [|x l IH]; intros [|n] H; simpl in *; try discriminate; [congruence|f_equal; auto]. }
  unfold put_session, set_heap, set_broker. simpl. rewrite Hls by exact Hi. destruct w; reflexivity.
Qed.
Lemma step_packet cfg w c i s k : serves w c i s -> (forall d, k <> Disconnect d) ->
  step cfg w (EPacket c k) = packet_step cfg c i s k w.
Proof. intros [H1 H2] H. simpl. rewrite H1, H2. destruct k; auto. congruence. Qed.
Lemma step_disconnect cfg w c i s d : serves w c i s ->
  step cfg w (EPacket c (Disconnect d)) = (disconnect_step c i s w, [Closed c]).
Proof. intros [H1 H2]. simpl. rewrite H1, H2. reflexivity. Qed.
Lemma step_end cfg w c i s : serves w c i s -> step cfg w (EEnd c) = (end_connection c i w, [Closed c]).
Proof. intros [H1 H2]. simpl. rewrite H1, H2. reflexivity. Qed.
Lemma step_out cfg w c i s f : serves w c i s -> step cfg w (EOut c f) = out_step c i s f w.
Proof. intros [H1 H2]. simpl. rewrite H1, H2. reflexivity. Qed.

(** ** Subscribing *)
Lemma subscribe_loop_spec fs : forall subs b rs subs' b',
  subscribe_loop fs subs b = (rs, subs', b') ->
  Forall2 (fun fo r => r = if validate_subscribe_filter (fst fo) then TopicFilterInvalid else GrantedQoS0) fs rs
  /\ (forall f, aget bytes_eqb f subs' <> None <->
        aget bytes_eqb f subs <> None \/ (In f (map fst fs) /\ validate_subscribe_filter f = None))
  /\ (forall f, ~ (In f (map fst fs) /\ validate_subscribe_filter f = None) ->
        aget bytes_eqb f subs' = aget bytes_eqb f subs)
  /\ (forall f, In f (map fst fs) -> validate_subscribe_filter f = None ->
        aget bytes_eqb f subs' = Some (Mk_stream (mem_get_retained f (bk_store b)) (length (log_at (levels f) (bk_tree b)))))
  /\ bk_store b' = bk_store b /\ (forall q, log_at q (bk_tree b') = log_at q (bk_tree b))
  /\ (forall q, node_at q (bk_tree b) <> None -> node_at q (bk_tree b') <> None)
  /\ (forall f, In f (map fst fs) -> validate_subscribe_filter f = None -> node_at (levels f) (bk_tree b') <> None)
  /\ (NoDup (akeys subs) -> NoDup (akeys subs')).
Proof.
  induction fs as [|[f o] fs IH]; intros subs b rs subs' b' H; simpl in H.
  - injection H as <- <- <-. repeat split; auto; try tauto; try contradiction; constructor.
  - destruct (validate_subscribe_filter f) as [e|] eqn:Ev.
    + destruct (subscribe_loop fs subs b) as [[rs1 subs1] b1] eqn:E. injection H as <- <- <-.
      destruct (IH _ _ _ _ _ E) as (H1 & H2 & H3 & H4 & H5 & H6 & H7 & H8 & H9).
      repeat split; auto.
      * constructor; auto. simpl. rewrite Ev. reflexivity.
      * intros Hg. apply H2 in Hg. simpl. tauto.
      * intros Hg. apply H2. simpl in Hg. destruct Hg as [Hg|[[<-|Hg] Hv]]; [tauto|congruence|tauto].
      * intros g Hg. apply H3. simpl in Hg. tauto.
      * intros g Hg Hv. destruct Hg as [Hg|Hg]; [simpl in Hg; subst g; congruence|auto].
      * intros g Hg Hv. destruct Hg as [Hg|Hg]; [simpl in Hg; subst g; congruence|auto].
    + destruct (subscribe_loop fs (aput bytes_eqb f (Mk_stream (mem_get_retained f (bk_store b))
         (length (log_at (levels f) (tree_subscribe (levels f) (bk_tree b))))) subs)
         (Mk_broker (tree_subscribe (levels f) (bk_tree b)) (bk_store b))) as [[rs1 subs1] b1] eqn:E.
      injection H as <- <- <-.
      destruct (IH _ _ _ _ _ E) as (H1 & H2 & H3 & H4 & H5 & H6 & H7 & H8 & H9). clear IH. simpl in *.
      assert (Hlog : forall q, log_at q (tree_subscribe (levels f) (bk_tree b)) = log_at q (bk_tree b))
        by (intros q; apply log_at_subscribe).
      repeat split.
      * constructor; auto. simpl. rewrite Ev. reflexivity.
      * intros Hg. apply H2 in Hg. destruct Hg as [Hg|Hg]; [|tauto].
        rewrite aget_aput in Hg by apply beqb_spec. destruct (bytes_eqb f0 f) eqn:Eb; [|tauto].
        apply beqb_spec in Eb. subst. tauto.
      * intros Hg. apply H2. rewrite aget_aput by apply beqb_spec.
        destruct (bytes_eqb f0 f) eqn:Eb; [left; discriminate|].
        destruct Hg as [Hg|[[<-|Hg] Hv]]; try tauto. rewrite bytes_eqb_refl in Eb. discriminate.
      * intros g Hg. rewrite H3 by tauto. rewrite aget_aput by apply beqb_spec.
        destruct (bytes_eqb g f) eqn:Eb; auto. apply beqb_spec in Eb. subst. tauto.
      * intros g Hg Hv. destruct (in_dec bytes_dec g (map fst fs)) as [Hi|Hi].
        -- rewrite H4 by auto. rewrite Hlog. reflexivity.
        -- destruct Hg as [<-|Hg]; [|contradiction]. rewrite H3 by tauto.
           rewrite aget_put_same by apply beqb_spec. rewrite Hlog. reflexivity.
      * auto.
      * intros q. rewrite H6. apply Hlog.
      * intros q Hq. apply H7. apply node_at_subscribe. auto.
      * intros g [<-|Hg] Hv; [|auto]. apply H7. apply node_at_subscribe. right.
        exists []. rewrite app_nil_r. reflexivity.
      * intros Hnd. apply H9. apply nodup_aput; auto. apply beqb_spec.
Qed.

(** ** Unsubscribing *)
Lemma unsubscribe_loop_spec fs : forall subs rs subs',
  unsubscribe_loop fs subs = (rs, subs') ->
  (forall n f r, nth_error fs n = Some f -> nth_error rs n = Some r ->
     r = if andb (is_some (aget bytes_eqb f subs)) (negb (existsb (bytes_eqb f) (firstn n fs)))
         then Success else NoSubscriptionExisted)
  /\ length rs = length fs
  /\ (forall f, In f fs -> aget bytes_eqb f subs' = None)
  /\ (forall f, ~ In f fs -> aget bytes_eqb f subs' = aget bytes_eqb f subs)
  /\ (NoDup (akeys subs) -> NoDup (akeys subs')).
Proof.
  induction fs as [|f fs IH]; intros subs rs subs' H; simpl in H.
  - injection H as <- <-. repeat split; auto; try contradiction. intros [|n] g r Hg; discriminate.
  - destruct (unsubscribe_loop fs (adel bytes_eqb f subs)) as [rs1 subs1] eqn:E. injection H as <- <-.
    destruct (IH _ _ _ E) as (H1 & H2 & H3 & H4 & H5). repeat split.
    + intros [|n] g r Hg Hr; simpl in *.
      * injection Hg as <-. injection Hr as <-. rewrite andb_true_r. reflexivity.
      * rewrite (H1 n g r Hg Hr). rewrite aget_adel by apply beqb_spec.
        destruct (bytes_eqb g f) eqn:Eb; simpl; [|reflexivity]. rewrite andb_false_r. reflexivity.
    + simpl. congruence.
    + intros g Hg. destruct (in_dec bytes_dec g fs) as [Hi|Hi]; [auto|].
      destruct Hg as [<-|Hg]; [|contradiction]. rewrite H4 by auto. apply aget_del_same. apply beqb_spec.
    + intros g Hg. simpl in Hg. rewrite H4 by tauto. apply aget_del_other; [apply beqb_spec|].
      intros ->. tauto.
    + intros Hnd. apply H5. apply nodup_adel; auto. apply beqb_spec.
Qed.
