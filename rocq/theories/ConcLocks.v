(** Facts about the locks of concurrent handlers: nobody waits for ever. *)
From Verif Require Import Base Utf8 Codec SpecCodec Tac Maps CodecFacts Topic SpecTopic TopicFacts Property PacketProps Packets
  TopicTree TreeFacts Storage SpecStorage StorageFacts Broker SpecBroker BrokerFacts Auth Session Server SpecServer SessionFacts ServerFacts Conc SpecConc ConcFacts.

(** What a task holds: at most one lock at a time. *)
Inductive hold := HNone | HManager | HSession (i : nat) | HRead.
Definition hold_of (l : lock) : hold := match l with LManager => HManager | LSession i => HSession i end.

Fixpoint tidy (h : hold) (k : code) : Prop :=
  match k with
  | Finish => h = HNone
  | Emit _ k => (h = HNone \/ h = HManager) /\ tidy h k
  | Sess i f => (h = HNone \/ h = HManager \/ h = HSession i) /\ forall s n, tidy h (snd (f s n))
  | Sub _ k => (exists i, h = HSession i) /\ forall n, tidy h (k n)
  | Walk _ k => h = HNone /\ forall ps, tidy HRead (k ps)
  | Send _ _ k => h = HRead /\ tidy h k
  | Leave k => h = HRead /\ tidy HNone k
  | Store _ k => h <> HRead /\ forall r, tidy h (k r)
  | Find _ k => h = HManager /\ forall r, tidy h (k r)
  | Forget _ k => h = HManager /\ tidy h k
  | New _ _ k => h = HManager /\ forall i, tidy h (k i)
  | Attach _ k | Detach k => h = HNone /\ tidy h k
  | Acquire l k => h = HNone /\ tidy (hold_of l) k
  | Release l k => h = hold_of l /\ tidy HNone k
  end.
Definition turn (o : obs) (h h' : hold) : Prop :=
  match o with
  | OAcquire l => h = HNone /\ h' = hold_of l
  | ORelease l => h = hold_of l /\ h' = HNone
  | OWalk _ _ => h = HNone /\ h' = HRead
  | OLeave => h = HRead /\ h' = HNone
  | _ => h' = h
  end.
Lemma tidy_next h k w o k1 : tidy h k -> next k w = Some (o, k1) -> exists h', turn o h h' /\ tidy h' k1.
Proof.
  destruct k; simpl; intros H Hn; try discriminate; try (injection Hn as <- <-; simpl; destruct H as [H1 H2]; eauto; fail).
  destruct H as [H1 H2].
  destruct (nth_error (w_heap w) i) as [s|]; [|discriminate]. specialize (H2 s (bk_tree (w_broker w))).
  destruct (f s (bk_tree (w_broker w))) as [s' k']. injection Hn as <- <-. simpl. eauto.
Qed.

Lemma tidy_sends ps m k : tidy HRead k -> tidy HRead (sends ps m k).
Proof. intros H. induction ps; simpl; auto. Qed.
Lemma tidy_route t m k : tidy HNone k -> tidy HNone (route t m k).
Proof. intros H. simpl. split; [reflexivity|]. intros ps. apply tidy_sends. simpl. auto. Qed.
Lemma tidy_publish t m k : tidy HNone k -> tidy HNone (publish t m k).
Proof.
  intros H. unfold publish. destruct (mg_retain m); [destruct (mg_payload m) as [[|]|]|]; try (apply tidy_route; exact H);
    cbn [tidy]; (split; [discriminate|]); intros; apply tidy_route, H.
Qed.
Lemma tidy_end c i : tidy HNone (end_code c i).
Proof.
  split; [auto|]. intros s n. cbn [snd]. destruct (se_will s); [apply tidy_publish|]; simpl; auto 10.
  repeat (split; [auto; discriminate|intros]). auto.
Qed.
Lemma tidy_respond c r : tidy HNone (respond c r).
Proof. destruct r; simpl; auto. Qed.
Lemma tidy_subscribe_one i f k : tidy (HSession i) k -> tidy (HSession i) (subscribe_one i f k).
Proof. intros H. simpl. split; [eauto|]. intros n. split; [discriminate|]. intros r. split; auto. Qed.
Lemma tidy_subscribe_all i fs : forall k, (forall rs, tidy (HSession i) (k rs)) -> tidy (HSession i) (subscribe_all i fs k).
Proof.
  induction fs as [|[f o] fs IH]; intros k H; cbn [subscribe_all]; auto.
  destruct (validate_subscribe_filter f); [apply IH; auto|]. apply tidy_subscribe_one, IH. auto.
Qed.
Lemma tidy_restore_all i fs k : tidy (HSession i) k -> tidy (HSession i) (restore_all i fs k).
Proof. intros H. induction fs; cbn [restore_all]; auto. apply tidy_subscribe_one. assumption. Qed.
Lemma tidy_emits os k : tidy HNone k -> tidy HNone (emits os k).
Proof. intros H. induction os; simpl; auto. Qed.
Lemma tidy_save i k : tidy HNone k -> tidy HNone (save_subscriptions i k).
Proof. intros H. simpl. split; [auto|]. intros. split; auto. intros. split; [discriminate|]. auto. Qed.
Lemma tidy_remove i n k : tidy HNone k -> tidy HNone (remove_inflight i n k).
Proof. intros H. simpl. split; [auto|]. intros. split; [discriminate|]. auto. Qed.
Lemma tidy_simple c i h after : (forall k, tidy HNone k -> tidy HNone (after k)) -> tidy HNone (simple_code c i h after).
Proof.
  intros H. simpl. split; [auto|]. intros s _. destruct (h s) as [[x|x|] s']; simpl; auto.
  - apply H, tidy_respond.
  - apply tidy_end.
Qed.
Lemma tidy_packet cfg c i k : tidy HNone (packet_code cfg c i k).
Proof.
  destruct k as [k|k|k|k|k|k|k|k|k|k|k| | |d|k]; cbn [packet_code]; try apply tidy_end;
    try (apply tidy_simple; intros; first [apply tidy_remove; assumption|assumption]).
  - unfold publish_code. destruct (validate_publish_topic (pb_topic k)); [apply tidy_end|].
    destruct (pb_qos k); [|destruct (pb_packet_id k)|destruct (pb_packet_id k)|];
      try (apply tidy_publish; first [apply tidy_respond|apply tidy_end]).
    split; [auto|]. intros. apply tidy_publish, tidy_respond.
  - unfold subscribe_code. cbn [tidy hold_of]. split; [reflexivity|]. split; [auto|]. intros. cbn [snd].
    apply tidy_subscribe_all. intros rs. cbn [tidy hold_of]. split; [reflexivity|]. apply tidy_save. simpl. auto.
  - unfold unsubscribe_code. cbn [tidy]. split; [auto|]. intros. destruct (unsubscribe_loop _ _). cbn [snd]. apply tidy_save. simpl; auto.
  - simpl. auto.
  - simpl. split; [auto|]. intros _ _. split; [auto|]. intros. split; [discriminate|]. intros. apply tidy_end.
Qed.
Lemma tidy_handler cfg sv e : tidy HNone (handler cfg sv e).
Proof.
  destruct e as [c first uuid a|c k|c f|c|c|]; cbn [handler]; destruct sv as [i|]; try reflexivity.
  - destruct first as [[k|k|k|k|k|k|k|k|k|k|k| | |d|k]|]; try (simpl; auto; fail).
    unfold connect_code. destruct (negb (authenticated cfg k)); [simpl; auto 10|].
    assert (Hr : forall i subs wl infl, tidy HNone (restore_code c i subs wl infl)).
    { intros i subs wl infl. unfold restore_code.
      assert (He : tidy HNone (emits (map (fun x => Sent c (Publish (retry_publish x))) infl) (Attach i Finish))).
      { apply tidy_emits. simpl. auto. }
      assert (Hw : tidy HNone match wl with
        | Some x => Sess i (fun s _ => (set_will (Some x) s, emits (map (fun x => Sent c (Publish (retry_publish x))) infl) (Attach i Finish)))
        | None => emits (map (fun x => Sent c (Publish (retry_publish x))) infl) (Attach i Finish)
        end) by (destruct wl; [split; auto|exact He]).
      destruct subs; [exact Hw|]. cbn [tidy]. split; [reflexivity|]. cbn [hold_of]. apply tidy_restore_all. cbn [tidy hold_of]. auto. }
    assert (Hgo : forall resume subs wl infl, tidy HManager (enter_code k (fun i => begin_code c i uuid a resume subs wl infl))).
    { intros resume subs wl infl.
      assert (Hb : forall i, tidy HManager (begin_code c i uuid a resume subs wl infl)).
      { intros i. unfold begin_code. cbn [tidy]. split; [auto|]. intros s n. destruct (begin uuid resume s) as [ack s']. cbn [snd].
        destruct a; [|simpl; auto 10]. cbn [tidy]. split; [auto|]. unfold client_id_of. cbn [tidy]. split; [auto|].
        intros. cbn [snd tidy]. split; [discriminate|]. intros _. split; [auto|]. intros s2 _. cbn [snd].
        destruct (se_will s2); cbn [tidy hold_of]; auto. split; [discriminate|]. auto. }
      unfold enter_code. cbn [tidy]. split; [reflexivity|]. intros [i|]; cbn [tidy]; (split; [auto|]); intros; apply Hb. }
    cbn [tidy]. split; [reflexivity|]. cbn [hold_of]. destruct (cf_clean_start (c_flags k)); cbn [tidy].
    + split; [reflexivity|]. split; [discriminate|]. intros _. split; [discriminate|]. intros _. apply Hgo.
    + split; [reflexivity|]. intros [i|]; [apply Hgo|]. cbn [tidy]. split; [discriminate|]. intros r.
      destruct r as [| [st|] | | | | |]; try apply Hgo. cbn [tidy]. split; [discriminate|]. intros rw. split; [discriminate|]. intros ri. apply Hgo.
  - apply tidy_packet.
  - unfold out_code. cbn [tidy]. split; [auto|]. intros s n. destruct (process_outgoing _ _ _) as [[[p|x|] s']|]; cbn [snd]; try (simpl; auto; fail).
    destruct (pb_packet_id p), (pb_qos p); try (simpl; auto; fail); simpl; (split; [auto|]); intros; (split; [discriminate|]); auto.
  - apply tidy_end.
  - simpl. auto.
Qed.

(** ** Sessions that tasks use exist *)
Fixpoint valid (n : nat) (k : code) : Prop :=
  match k with
  | Finish => True
  | Emit _ k | Send _ _ k | Leave k | Forget _ k | Detach k | Acquire _ k | Release _ k => valid n k
  | Attach i k => (i < n)%nat /\ valid n k
  | Sess i f => (i < n)%nat /\ forall s t, valid n (snd (f s t))
  | Sub _ k => forall r, valid n (k r)
  | Walk _ k => forall r, valid n (k r)
  | Store _ k => forall r, valid n (k r)
  | Find _ k => forall m r, (n <= m)%nat -> (forall i, r = Some i -> (i < m)%nat) -> valid m (k r)
  | New _ _ k => forall m, (n <= m)%nat -> valid (S m) (k m)
  end.
Lemma valid_mono k : forall n m, (n <= m)%nat -> valid n k -> valid m k.
Proof.
  induction k using code_induction; intros a b Hab; simpl; eauto.
  - intros [H1 H2]. split; [lia|]. eauto.
  - intros H1 c r Hc. apply H1. lia.
  - intros H1 c Hc. apply H1. lia.
  - intros [H1 H2]. split; [lia|]. eauto.
Qed.
Lemma apply_length c o w : (length (w_heap w) <= length (w_heap (apply c o w)))%nat.
Proof. destruct o; simpl; rewrite ?list_set_length, ?app_length; simpl; lia. Qed.
Lemma valid_next c k w o k1 : wf w -> valid (length (w_heap w)) k -> next k w = Some (o, k1) ->
  valid (length (w_heap (apply c o w))) k1.
Proof.
  intros Hw. destruct k; simpl; intros H Hn; try discriminate;
    try (injection Hn as <- <-; simpl; auto; fail).
  - destruct H as [H1 H2]. destruct (nth_error (w_heap w) i) as [s|]; [|discriminate]. specialize (H2 s (bk_tree (w_broker w))).
    destruct (f s (bk_tree (w_broker w))) as [s' k']. injection Hn as <- <-. simpl. rewrite list_set_length. exact H2.
  - injection Hn as <- <-. simpl. apply H; [lia|]. intros i Hi. eapply (proj1 Hw). exact Hi.
  - injection Hn as <- <-. simpl. rewrite app_length. simpl. rewrite Nat.add_1_r. apply H. lia.
  - injection Hn as <- <-. simpl. apply H.
Qed.

Lemma wf_apply c k w o k1 : wf w -> valid (length (w_heap w)) k -> next k w = Some (o, k1) -> wf (apply c o w).
Proof.
  intros Hw Hv Hn.
  assert (H0 : forall o', w_manager (apply c o' w) = w_manager w -> w_conns (apply c o' w) = w_conns w -> wf (apply c o' w)).
  { intros o' Hm Hc. destruct Hw as [H1 H2]. pose proof (apply_length c o' w). split.
    - intros id i. rewrite Hm. intros H3. apply H1 in H3. lia.
    - intros d i. rewrite Hc. intros H3. apply H2 in H3. lia. }
  destruct k; simpl in Hn; try discriminate; try (injection Hn as <- <-; apply H0; reflexivity).
  - destruct (nth_error (w_heap w) i) as [s|]; [|discriminate]. destruct (f s (bk_tree (w_broker w))). injection Hn as <- <-. apply H0; reflexivity.
  - injection Hn as <- <-. destruct Hw as [H1 H2]. split; [|exact H2]. simpl. intros id' i. rewrite aget_adel by apply beqb_spec.
    destruct (bytes_eqb id' id); [discriminate|]. apply H1.
  - injection Hn as <- <-. destruct Hw as [H1 H2]. split; simpl; rewrite app_length; simpl.
    + intros id' i. rewrite aget_aput by apply beqb_spec. destruct (bytes_eqb id' id); [intros H; injection H as <-; lia|].
      intros H. apply H1 in H. lia.
    + intros d i H. apply H2 in H. lia.
  - injection Hn as <- <-. simpl in Hv. destruct Hw as [H1 H2]. split; [exact H1|]. simpl. intros d j. rewrite aget_aput by apply nateqb_spec.
    destruct (Nat.eqb d c); [intros H; injection H as <-; apply Hv|]. apply H2.
  - injection Hn as <- <-. apply wf_close, Hw.
Qed.

Lemma valid_sends n ps m k : valid n k -> valid n (sends ps m k).
Proof. intros H. induction ps; simpl; auto. Qed.
Lemma valid_pub_code n t m k : valid n k -> valid n (publish t m k).
Proof.
  intros H. unfold publish, route. destruct (mg_retain m); [destruct (mg_payload m) as [[|]|]|]; simpl; intros; apply valid_sends; exact H.
Qed.
Lemma valid_end n c i : (i < n)%nat -> valid n (end_code c i).
Proof.
  intros Hi. split; [exact Hi|]. intros s t. cbn [snd]. destruct (se_will s); [|exact I]. apply valid_pub_code. simpl. auto 10.
Qed.
Lemma valid_respond n c r : valid n (respond c r).
Proof. destruct r; exact I. Qed.
Lemma valid_subscribe_all n i fs : (i < n)%nat -> forall k, (forall rs, valid n (k rs)) -> valid n (subscribe_all i fs k).
Proof.
  intros Hi. induction fs as [|[f o] fs IH]; intros k H; cbn [subscribe_all]; auto.
  destruct (validate_subscribe_filter f); [apply IH; auto|]. simpl. intros _ _. split; [exact Hi|]. intros. apply IH. auto.
Qed.
Lemma valid_restore_all n i fs k : (i < n)%nat -> valid n k -> valid n (restore_all i fs k).
Proof. intros Hi H. induction fs; simpl; auto. Qed.
Lemma valid_emits n os k : valid n k -> valid n (emits os k).
Proof. intros H. induction os; simpl; auto. Qed.
Lemma valid_save n i k : (i < n)%nat -> valid n k -> valid n (save_subscriptions i k).
Proof. intros Hi H. simpl. auto. Qed.
Lemma valid_simple n c i h after : (i < n)%nat -> (forall k, valid n k -> valid n (after k)) -> valid n (simple_code c i h after).
Proof.
  intros Hi H. simpl. split; [exact Hi|]. intros s _. destruct (h s) as [[x|x|] s']; simpl; auto.
  - apply H, valid_respond.
  - apply valid_end, Hi.
Qed.
Lemma valid_packet n cfg c i k : (i < n)%nat -> valid n (packet_code cfg c i k).
Proof.
  intros Hi. destruct k as [k|k|k|k|k|k|k|k|k|k|k| | |d|k]; cbn [packet_code]; try (apply valid_end, Hi);
    try (apply valid_simple; [exact Hi|]; intros; try (simpl; auto; fail)).
  - unfold publish_code. destruct (validate_publish_topic (pb_topic k)); [apply valid_end, Hi|].
    destruct (pb_qos k); [|destruct (pb_packet_id k)|destruct (pb_packet_id k)|];
      try (apply valid_pub_code; first [apply valid_respond|apply valid_end, Hi]).
    split; [auto|]. intros. apply valid_pub_code, valid_respond.
  - unfold subscribe_code. cbn [valid]. split; [exact Hi|]. intros. cbn [snd].
    apply valid_subscribe_all; [exact Hi|]. intros rs. cbn [valid]. apply valid_save; [exact Hi|exact I].
  - unfold unsubscribe_code. cbn [valid]. split; [exact Hi|]. intros. destruct (unsubscribe_loop _ _). cbn [snd]. apply valid_save; [exact Hi|exact I].
  - exact I.
  - simpl. split; [exact Hi|]. intros. split; [exact Hi|]. intros. apply valid_end, Hi.
Qed.
Lemma valid_handler n cfg sv e : (forall i, sv = Some i -> (i < n)%nat) -> valid n (handler cfg sv e).
Proof.
  intros Hsv. destruct e as [c first uuid a|c k|c f|c|c|]; cbn [handler]; destruct sv as [i|]; try exact I.
  - clear Hsv. destruct first as [[k|k|k|k|k|k|k|k|k|k|k| | |d|k]|]; try exact I.
    unfold connect_code. destruct (negb (authenticated cfg k)); [exact I|].
    assert (Hgo : forall n resume subs wl infl, valid n (enter_code k (fun i => begin_code c i uuid a resume subs wl infl))).
    { clear n. intros n resume subs wl infl.
      assert (Hb : forall n i, (i < n)%nat -> valid n (begin_code c i uuid a resume subs wl infl)).
      { clear n. intros n i Hi.
        assert (Hr : valid n (restore_code c i subs wl infl)).
        { unfold restore_code.
          assert (He : valid n (emits (map (fun x => Sent c (Publish (retry_publish x))) infl) (Attach i Finish))).
          { apply valid_emits. simpl. auto. }
          destruct subs; destruct wl; cbn [valid]; auto; apply valid_restore_all; cbn [valid]; auto. }
        unfold begin_code. cbn [valid]. split; [auto|]. intros s t. destruct (begin uuid resume s) as [ack s']. cbn [snd].
        destruct a; [|exact I]. cbn [valid client_id_of]. split; [auto|]. intros. cbn [snd valid]. intros _. split; [auto|]. intros s2 _. cbn [snd].
        destruct (se_will s2); cbn [valid]; auto. }
      unfold enter_code. cbn [valid]. intros m [i|] Hm Hi; cbn [valid].
      - split; [auto|]. intros. apply Hb. auto.
      - intros m' Hm'. apply Hb. lia. }
    cbn [valid]. destruct (cf_clean_start (c_flags k)); cbn [valid].
    + intros _ _. apply Hgo.
    + intros m [i|] Hm Hi; [apply Hgo|]. cbn [valid]. intros r.
      destruct r as [| [st|] | | | | |]; try apply Hgo. cbn [valid]. intros rw ri. apply Hgo.
  - apply valid_packet. auto.
  - unfold out_code. cbn [valid]. split; [auto|]. intros s t. destruct (process_outgoing _ _ _) as [[[p|x|] s']|]; cbn [snd]; try exact I.
    destruct (pb_packet_id p), (pb_qos p); simpl; auto.
  - apply valid_end. auto.
Qed.

(** ** The invariant *)
Lemma lockeqb_spec a b : lock_eqb a b = true <-> a = b.
Proof.
  destruct a, b; simpl; try (split; congruence). rewrite Nat.eqb_eq. split; congruence.
Qed.
Lemma hold_of_inj a b : hold_of a = hold_of b -> a = b.
Proof. destruct a, b; simpl; congruence. Qed.
Definition inv (x : conf) : Prop :=
  wf (cn_world x) /\
  (forall c k, aget Nat.eqb c (cn_tasks x) = Some k -> valid (length (w_heap (cn_world x))) k) /\
  exists hs : nat -> hold,
    (forall c k, aget Nat.eqb c (cn_tasks x) = Some k -> tidy (hs c) k) /\
    (forall c, aget Nat.eqb c (cn_tasks x) = None -> hs c = HNone) /\
    (forall l d, aget lock_eqb l (cn_locks x) = Some d <-> hs d = hold_of l) /\
    (forall d, In d (cn_readers x) <-> hs d = HRead).
Lemma inv_new {st0} : inv (conf_on st0).
Proof.
  split; [apply wf_new|]. split; [discriminate|]. exists (fun _ => HNone). repeat split; try discriminate; try tauto.
  - destruct l; discriminate.
  - intros [].
Qed.
Lemma inv_step cfg x m x1 i : inv x -> mstep cfg x m = Some (x1, i) -> inv x1.
Proof.
  intros (Hw & Hv & hs & Ht & Hn & Hl & Hr) Hs.
  apply mstep_inv in Hs. destruct Hs as [(e & -> & -> & He & Hn' & ->)|[(d & -> & -> & Hk & ->)|(d & k & o & k1 & -> & -> & Hk & Hnx & Hmay & ->)]];
    unfold inv; cbn [cn_world cn_tasks cn_locks cn_readers].
  - split; [exact Hw|]. set (c := event_conn e) in *. split.
    { intros d k. rewrite aget_aput by apply nateqb_spec. destruct (Nat.eqb_spec d c); [|apply Hv].
      intros H. injection H as <-. apply valid_handler. intros j Hj. eapply (proj2 Hw), Hj. }
    exists hs. repeat split; try apply Hl; try apply Hr.
    + intros d k. rewrite aget_aput by apply nateqb_spec. destruct (Nat.eqb_spec d c); [|apply Ht].
      intros H. injection H as <-. subst d. rewrite (Hn _ Hn'). apply tidy_handler.
    + intros d. rewrite aget_aput by apply nateqb_spec. destruct (Nat.eqb_spec d c); [discriminate|]. apply Hn.
  - split; [exact Hw|]. split.
    { intros c k. rewrite aget_adel by apply nateqb_spec. destruct (Nat.eqb_spec c d); [discriminate|]. apply Hv. }
    exists hs. repeat split; try apply Hl; try apply Hr.
    + intros c k. rewrite aget_adel by apply nateqb_spec. destruct (Nat.eqb_spec c d); [discriminate|]. apply Ht.
    + intros c. rewrite aget_adel by apply nateqb_spec. destruct (Nat.eqb_spec c d) as [->|]; [|apply Hn].
      intros _. apply Ht in Hk. exact Hk.
  - assert (Hvk := Hv _ _ Hk). split; [eapply wf_apply; eauto|]. split.
    { intros c k'. rewrite aget_aput by apply nateqb_spec. destruct (Nat.eqb_spec c d).
      - intros H. injection H as <-. eapply valid_next; eauto.
      - intros H. apply Hv in H. eapply valid_mono; [|exact H]. apply apply_length. }
    destruct (tidy_next _ _ _ _ _ (Ht _ _ Hk) Hnx) as (h' & Hturn & Htidy).
    exists (fun c => if Nat.eqb c d then h' else hs c). 
    split; [|split; [|split]].
    + intros c k'. rewrite aget_aput by apply nateqb_spec. destruct (Nat.eqb_spec c d).
      * intros H. injection H as <-. exact Htidy.
      * apply Ht.
    + intros c. rewrite aget_aput by apply nateqb_spec. destruct (Nat.eqb_spec c d); [discriminate|]. apply Hn.
    + intros l c.
      assert (Hgen : (forall l', o <> OAcquire l' /\ o <> ORelease l') -> (hs d = hold_of l <-> h' = hold_of l) ->
        (aget lock_eqb l (relock d o (cn_locks x)) = Some c <-> (if Nat.eqb c d then h' else hs c) = hold_of l)).
      { intros Ho Hh. assert (relock d o (cn_locks x) = cn_locks x) as ->.
        { destruct o as [| | | | | | | | | | | |l1|l1]; try reflexivity; exfalso; destruct (Ho l1); congruence. }
        rewrite Hl. destruct (Nat.eqb_spec c d) as [->|]; tauto. }
      destruct o; cbn [turn] in Hturn; try (apply Hgen; [intros; split; discriminate|subst h'; reflexivity]).
      * destruct Hturn as [H1 H2]. apply Hgen; [intros; split; discriminate|]. rewrite H1, H2. destruct l; split; discriminate.
      * destruct Hturn as [H1 H2]. apply Hgen; [intros; split; discriminate|]. rewrite H1, H2. destruct l; split; discriminate.
      * (* acquire *)
        clear Hgen. destruct Hturn as [H1 ->]. cbn [relock]. rewrite aget_aput by apply lockeqb_spec.
        destruct (lock_eqb l l0) eqn:E.
        -- apply lockeqb_spec in E. subst l0. destruct (Nat.eqb_spec c d) as [->|Hcd]; [split; reflexivity|].
           split; [congruence|]. intros Hh. exfalso. apply Hl in Hh. simpl in Hmay. unfold free_for in Hmay. rewrite Hh in Hmay.
           apply Nat.eqb_eq in Hmay. congruence.
        -- rewrite Hl. destruct (Nat.eqb_spec c d) as [->|Hcd]; [|tauto]. rewrite H1. split; intros H.
           ++ destruct l; discriminate.
           ++ apply hold_of_inj in H. subst l0. rewrite (proj2 (lockeqb_spec _ _) eq_refl) in E. discriminate.
      * (* release *)
        clear Hgen. destruct Hturn as [H1 ->]. cbn [relock]. rewrite aget_adel by apply lockeqb_spec.
        destruct (lock_eqb l l0) eqn:E.
        -- apply lockeqb_spec in E. subst l0. split; [discriminate|]. destruct (Nat.eqb_spec c d) as [->|Hcd]; [destruct l; discriminate|].
           intros H. apply Hl in H. apply Hl in H1. congruence.
        -- rewrite Hl. destruct (Nat.eqb_spec c d) as [->|Hcd]; [|tauto]. rewrite H1. split; intros H.
           ++ apply hold_of_inj in H. subst l0. rewrite (proj2 (lockeqb_spec _ _) eq_refl) in E. discriminate.
           ++ destruct l; discriminate.
    + intros c.
      assert (Hgen : reread d o (cn_readers x) = cn_readers x -> (hs d = HRead <-> h' = HRead) ->
        (In c (reread d o (cn_readers x)) <-> (if Nat.eqb c d then h' else hs c) = HRead)).
      { intros -> Hh. rewrite Hr. destruct (Nat.eqb_spec c d) as [->|]; tauto. }
      destruct o; cbn [turn] in Hturn; try (apply Hgen; [reflexivity|subst h'; reflexivity]).
      * clear Hgen. destruct Hturn as [H1 ->]. cbn [reread In]. rewrite Hr. destruct (Nat.eqb_spec c d) as [->|]; [tauto|].
        split; [intros [H|H]; congruence|auto].
      * clear Hgen. destruct Hturn as [H1 ->]. cbn [reread]. destruct (Nat.eqb_spec c d) as [->|].
        -- split; [|discriminate]. intros H. exfalso. eapply remove_In. exact H.
        -- rewrite <- Hr. split; [intros H; apply in_remove in H; tauto|]. intros H. apply in_in_remove; auto.
      * apply Hgen; [reflexivity|]. destruct Hturn as [-> ->]. destruct l; split; discriminate.
      * apply Hgen; [reflexivity|]. destruct Hturn as [-> ->]. destruct l; split; discriminate.
Qed.
Lemma inv_runs cfg x tr x' : mruns cfg x tr x' -> inv x -> inv x'.
Proof. induction 1; intros; auto. eapply IHmruns, inv_step; eauto. Qed.

(** ** Somebody can always go on *)
Lemma can_go cfg x c k o k1 : aget Nat.eqb c (cn_tasks x) = Some k -> next k (cn_world x) = Some (o, k1) -> may c o x = true ->
  mstep cfg x (MGo c) = Some (Mk_conf (apply c o (cn_world x)) (aput Nat.eqb c k1 (cn_tasks x)) (relock c o (cn_locks x)) (reread c o (cn_readers x)), IStep c o).
Proof. intros Hk Hn Hm. simpl. rewrite Hk. destruct k; try discriminate Hn; rewrite Hn, Hm; reflexivity. Qed.

(** A task that is not waiting for a lock can go on. *)
Lemma enabled cfg x c k : inv x -> aget Nat.eqb c (cn_tasks x) = Some k ->
  (forall i, aget lock_eqb (LSession i) (cn_locks x) <> None -> aget lock_eqb (LSession i) (cn_locks x) = Some c \/ (forall f, k <> Sess i f) /\ (forall k', k <> Acquire (LSession i) k')) ->
  (aget lock_eqb LManager (cn_locks x) <> None -> forall k', k <> Acquire LManager k') ->
  (cn_readers x <> [] -> forall f k', k <> Sub f k') ->
  exists x1 i, mstep cfg x (MGo c) = Some (x1, i).
Proof.
  intros (Hw & Hv & hs & Ht & Hn & Hl & Hr) Hk Hs Hm Hsub.
  assert (Hgo : forall o k1, next k (cn_world x) = Some (o, k1) -> may c o x = true -> exists x1 i, mstep cfg x (MGo c) = Some (x1, i)).
  { intros o k1 H1 H2. do 2 eexists. eapply can_go; eauto. }
  specialize (Hv _ _ Hk). specialize (Ht _ _ Hk).
  destruct k; try (eapply Hgo; [reflexivity|reflexivity]).
  - simpl. rewrite Hk. eauto.
  - destruct Hv as [Hi _]. destruct (nth_error (w_heap (cn_world x)) i) as [s|] eqn:E; [|apply nth_error_None in E; lia].
    destruct (f s (bk_tree (w_broker (cn_world x)))) as [s' k'] eqn:Ef.
    eapply Hgo; [simpl; rewrite E, Ef; reflexivity|]. simpl. unfold free_for.
    destruct (aget lock_eqb (LSession i) (cn_locks x)) as [d|] eqn:El; [|reflexivity].
    destruct (Hs i) as [H|[H _]]; [congruence| |].
    + rewrite El in H. injection H as ->. apply Nat.eqb_refl.
    + exfalso. eapply H. reflexivity.
  - eapply Hgo; [reflexivity|]. simpl. destruct (cn_readers x); [reflexivity|]. exfalso. eapply Hsub; [discriminate|reflexivity].
  - eapply Hgo; [reflexivity|]. simpl. unfold free_for.
    destruct (aget lock_eqb l (cn_locks x)) as [d|] eqn:El; [|reflexivity]. destruct l as [|i].
    + exfalso. eapply Hm; [congruence|reflexivity].
    + destruct (Hs i) as [H|[_ H]]; [congruence| |].
      * rewrite El in H. injection H as ->. apply Nat.eqb_refl.
      * exfalso. eapply H. reflexivity.
Qed.

Lemma progress cfg x c k : inv x -> aget Nat.eqb c (cn_tasks x) = Some k -> exists d x1 i, mstep cfg x (MGo d) = Some (x1, i).
Proof.
  intros Hi Hk. pose proof Hi as (Hw & Hv & hs & Ht & Hn & Hl & Hr).
  assert (Hbusy : forall d, hs d <> HNone -> exists k, aget Nat.eqb d (cn_tasks x) = Some k).
  { intros d H. destruct (aget Nat.eqb d (cn_tasks x)) eqn:E; [eauto|]. apply Hn in E. congruence. }
  destruct (cn_readers x) as [|d rs] eqn:Er.
  2:{ (* somebody publishes *)
    assert (Hd : hs d = HRead) by (apply Hr; left; reflexivity).
    destruct (Hbusy d) as [k' Hk']; [congruence|]. exists d. pose proof (Ht _ _ Hk') as Htd. rewrite Hd in Htd.
    eapply enabled; [exact Hi|exact Hk'| | |].
    - intros i _. right. split; intros z ->; simpl in Htd; destruct Htd as [H _]; [destruct H as [H|[H|H]]|]; discriminate.
    - intros _ z ->. simpl in Htd. destruct Htd. discriminate.
    - intros _ f z ->. simpl in Htd. destruct Htd as [[j H] _]. discriminate. }
  assert (Hses : (exists i d, aget lock_eqb (LSession i) (cn_locks x) = Some d) \/ (forall i, aget lock_eqb (LSession i) (cn_locks x) = None)).
  { assert (Hin : forall i d, In (LSession i, d) (cn_locks x) -> exists d', aget lock_eqb (LSession i) (cn_locks x) = Some d').
    { intros i d H. apply (aget_some_key _ lockeqb_spec). apply (in_map fst) in H. exact H. }
    destruct (existsb (fun e => match fst e with LSession _ => true | _ => false end) (cn_locks x)) eqn:E.
    - left. apply existsb_exists in E. destruct E as ([[|i] d] & H & E); [discriminate|]. exists i. eapply Hin, H.
    - right. intros i. destruct (aget lock_eqb (LSession i) (cn_locks x)) as [d|] eqn:El; [|reflexivity]. exfalso.
      apply (aget_in _ lockeqb_spec) in El. rewrite <- Bool.not_true_iff_false in E. apply E. apply existsb_exists. exists (LSession i, d). auto. }
  destruct Hses as [(i & d & Hd)|Hfree].
  - (* somebody subscribes *)
    apply Hl in Hd. cbn [hold_of] in Hd.
    destruct (Hbusy d) as [k' Hk']; [congruence|]. exists d. pose proof (Ht _ _ Hk') as Htd. rewrite Hd in Htd.
    eapply enabled; [exact Hi|exact Hk'| | |].
    + intros j _. destruct (Nat.eq_dec j i) as [->|E]; [left; apply Hl; exact Hd|]. right.
      split; intros z ->; simpl in Htd; destruct Htd as [H _]; [destruct H as [H|[H|H]]|]; congruence.
    + intros _ z ->. simpl in Htd. destruct Htd. discriminate.
    + intros H. rewrite Er in H. congruence.
  - destruct (aget lock_eqb LManager (cn_locks x)) as [d|] eqn:Em.
    + (* somebody connects *)
      apply Hl in Em. cbn [hold_of] in Em.
      destruct (Hbusy d) as [k' Hk']; [congruence|]. exists d. pose proof (Ht _ _ Hk') as Htd. rewrite Em in Htd.
      eapply enabled; [exact Hi|exact Hk'| | |].
      * intros j H. rewrite Hfree in H. congruence.
      * intros _ z ->. simpl in Htd. destruct Htd. discriminate.
      * intros H. rewrite Er in H. congruence.
    + exists c. eapply enabled; [exact Hi|exact Hk| | |].
      * intros j H. rewrite Hfree in H. congruence.
      * congruence.
      * intros H. rewrite Er in H. congruence.
Qed.

(** ** Handlers end *)
Inductive child : code -> code -> Prop :=
| ch_next k w o k1 : next k w = Some (o, k1) -> child k1 k.
Lemma acc_code k : Acc child k.
Proof.
  induction k using code_induction; constructor; intros k' Hc; inversion Hc as [? w o' ? Hn]; subst; simpl in Hn;
    try discriminate; try (injection Hn as <- <-; auto; fail).
  destruct (nth_error (w_heap w) i) as [s|]; [|discriminate]. specialize (H s (bk_tree (w_broker w))).
  destruct (f s (bk_tree (w_broker w))) as [s' k1]. injection Hn as <- <-. exact H.
Qed.
Inductive less : list (nat * code) -> list (nat * code) -> Prop :=
| le_here c k1 k l : child k1 k -> less ((c, k1) :: l) ((c, k) :: l)
| le_drop c k l : less l ((c, k) :: l)
| le_there p l1 l : less l1 l -> less (p :: l1) (p :: l).
Lemma acc_tasks l : Acc less l.
Proof.
  induction l as [|[c k] l IH].
  - constructor. intros l' H. inversion H.
  - revert k. induction IH as [l Hl IHl]. intros k. induction (acc_code k) as [k Hk IHk].
    constructor. intros l' H. inversion H; subst.
    + apply IHk. assumption.
    + constructor. exact Hl.
    + apply IHl. assumption.
Qed.
Lemma less_aput c k k1 : forall l, aget Nat.eqb c l = Some k -> child k1 k -> less (aput Nat.eqb c k1 l) l.
Proof.
  induction l as [|[d k'] l IH]; simpl; [discriminate|]. destruct (Nat.eqb_spec c d) as [->|E].
  - intros H Hc. injection H as ->. constructor. exact Hc.
  - intros H Hc. apply le_there. auto.
Qed.
Lemma less_adel c k : forall l, NoDup (akeys l) -> aget Nat.eqb c l = Some k -> less (adel Nat.eqb c l) l.
Proof.
  induction l as [|[d k'] l IH]; simpl; [discriminate|]. intros Hd. inversion Hd as [|? ? H1 H2]; subst. destruct (Nat.eqb_spec c d) as [->|E].
  - intros _. assert (adel Nat.eqb d l = l) as ->; [|apply le_drop].
    apply adel_none. apply (aget_none _ nateqb_spec). exact H1.
  - intros H. apply le_there. auto.
Qed.
Definition distinct (x : conf) : Prop := NoDup (akeys (cn_tasks x)).
Lemma distinct_step cfg x m x1 i : distinct x -> mstep cfg x m = Some (x1, i) -> distinct x1.
Proof.
  intros Hd Hs. apply mstep_inv in Hs. destruct Hs as [(e & -> & -> & He & Hn' & ->)|[(d & -> & -> & Hk & ->)|(d & k & o & k1 & -> & -> & Hk & Hnx & Hmay & ->)]];
    unfold distinct; cbn [cn_tasks]; [apply (nodup_aput _ nateqb_spec)|apply (nodup_adel _ nateqb_spec)|apply (nodup_aput _ nateqb_spec)]; exact Hd.
Qed.
Lemma distinct_runs cfg x tr x' : mruns cfg x tr x' -> distinct x -> distinct x'.
Proof. induction 1; intros; auto. eapply IHmruns, distinct_step; eauto. Qed.
Lemma go_less cfg x c x1 i : distinct x -> mstep cfg x (MGo c) = Some (x1, i) -> less (cn_tasks x1) (cn_tasks x).
Proof.
  intros Hd Hs. apply mstep_inv in Hs. destruct Hs as [(e & H & _)|[(d & H & -> & Hk & ->)|(d & k & o & k1 & H & -> & Hk & Hnx & Hmay & ->)]]; [discriminate| |];
    cbn [cn_tasks].
  - eapply less_adel; eauto.
  - eapply less_aput; [exact Hk|]. econstructor. exact Hnx.
Qed.
Definition only_steps (tr : list item) : Prop := Forall (fun i => match i with IStart _ => False | _ => True end) tr.
Lemma finishes cfg x : inv x -> distinct x -> exists tr x', mruns cfg x tr x' /\ only_steps tr /\ cn_tasks x' = [].
Proof.
  remember (cn_tasks x) as l eqn:El. revert x El. induction (acc_tasks l) as [l _ IH]. intros x -> Hi Hd.
  destruct (cn_tasks x) as [|[c k] l] eqn:E.
  - exists [], x. repeat split; auto; constructor.
  - destruct (progress cfg x c k Hi) as (d & x1 & i & Hs).
    { rewrite E. simpl. rewrite Nat.eqb_refl. reflexivity. }
    assert (Hless : less (cn_tasks x1) ((c, k) :: l)) by (rewrite <- E; eapply go_less; eauto).
    destruct (IH _ Hless x1 eq_refl) as (tr & x' & Hr & Ho & Ht).
    + eapply inv_step; eauto.
    + eapply distinct_step; eauto.
    + exists (i :: tr), x'. split; [econstructor; eauto|]. split; [|exact Ht]. constructor; [|exact Ho].
      apply mstep_inv in Hs. destruct Hs as [(e & H & _)|[(d' & _ & -> & _)|(d' & k' & o & k1 & _ & -> & _)]]; [discriminate|exact I|exact I].
Qed.
(** There is no schedule that goes on for ever without new events. *)
Lemma no_endless cfg x (xs : nat -> conf) (cs : nat -> nat) (is : nat -> item) :
  distinct x -> xs O = x -> (forall n, mstep cfg (xs n) (MGo (cs n)) = Some (xs (S n), is n)) -> False.
Proof.
  remember (cn_tasks x) as l eqn:El. revert x xs cs is El. induction (acc_tasks l) as [l _ IH]. intros x xs cs is -> Hd H0 Hs.
  pose proof (Hs O) as H1. rewrite H0 in H1.
  apply (IH (cn_tasks (xs 1%nat))) with (x := xs 1%nat) (xs := fun n => xs (S n)) (cs := fun n => cs (S n)) (is := fun n => is (S n)).
  - eapply go_less; eauto.
  - reflexivity.
  - eapply distinct_step; eauto.
  - reflexivity.
  - intros n. apply Hs.
Qed.

(** ** Histories of Server.v are schedules *)
Lemma no_locks x hs : (forall l d, aget lock_eqb l (cn_locks x) = Some d <-> hs d = hold_of l) -> (forall d : nat, hs d = HNone) -> cn_locks x = [].
Proof.
  intros Hl Hh. destruct (cn_locks x) as [|[l d] ls] eqn:E; [reflexivity|]. exfalso.
  assert (H : aget lock_eqb l ((l, d) :: ls) = Some d) by (simpl; rewrite (proj2 (lockeqb_spec _ _) eq_refl); reflexivity).
  apply Hl in H. rewrite Hh in H. destruct l; discriminate.
Qed.
Lemma no_readers x (hs : nat -> hold) : (forall d, In d (cn_readers x) <-> hs d = HRead) -> (forall d : nat, hs d = HNone) -> cn_readers x = [].
Proof.
  intros Hl Hh. destruct (cn_readers x) as [|d ls] eqn:E; [reflexivity|]. exfalso.
  assert (H : hs d = HRead) by (apply Hl; left; reflexivity). rewrite Hh in H. discriminate.
Qed.
Lemma solo_runs cfg c k : forall x, inv x -> cn_tasks x = [(c, k)] ->
  exists tr, mruns cfg x tr (Mk_conf (fst (solo c k (cn_world x))) [] [] []) /\ outputs_of c tr = snd (solo c k (cn_world x))
    /\ only_steps tr.
Proof.
  induction (acc_code k) as [k _ IH]. intros x Hi Hx.
  assert (Hk : aget Nat.eqb c (cn_tasks x) = Some k) by (rewrite Hx; simpl; rewrite Nat.eqb_refl; reflexivity).
  destruct (progress cfg x c k Hi Hk) as (d & x1 & i & Hs).
  assert (d = c) as ->.
  { simpl in Hs. rewrite Hx in Hs. simpl in Hs. destruct (Nat.eqb_spec d c); [assumption|discriminate]. }
  pose proof (inv_step _ _ _ _ _ Hi Hs) as Hi1. pose proof Hs as Hs0.
  apply mstep_inv in Hs. destruct Hs as [(e & H & _)|[(d & H & -> & Hf & ->)|(d & k' & o & k1 & H & -> & Hk' & Hnx & Hmay & ->)]]; [discriminate| |].
  - injection H as <-. rewrite Hk in Hf. injection Hf as ->. exists [IEnd c]. split; [|split; [reflexivity|repeat constructor]].
    econstructor; [exact Hs0|].
    destruct Hi1 as (Hw & Hv & hs & Ht & Hn & Hl & Hr). cbn [cn_tasks cn_world cn_locks cn_readers] in *.
    assert (Hnone : forall d, hs d = HNone).
    { intros d. apply Hn. rewrite Hx. simpl. rewrite Nat.eqb_refl. simpl. reflexivity. }
    rewrite Hx. simpl. rewrite Nat.eqb_refl. cbn [fst solo].
    rewrite (no_locks x hs Hl Hnone), (no_readers x hs Hr Hnone). constructor.
  - injection H as <-. rewrite Hk in Hk'. injection Hk' as <-.
    destruct (IH k1 (ch_next _ _ _ _ Hnx) _ Hi1) as (tr & Hr & Ho & Hst).
    { cbn [cn_tasks]. rewrite Hx. simpl. rewrite Nat.eqb_refl. reflexivity. }
    exists (IStep c o :: tr). cbn [cn_world] in *.
    assert (Hsolo : solo c k (cn_world x) = (fst (solo c k1 (apply c o (cn_world x))), outs_of o ++ snd (solo c k1 (apply c o (cn_world x))))).
    { clear - Hnx. destruct k; simpl in Hnx; try discriminate;
        try (injection Hnx as <- <-; cbn [solo apply outs_of app]; destruct (solo c _ _); reflexivity).
      cbn [solo]. destruct (nth_error (w_heap (cn_world x)) i) as [s|]; [|discriminate].
      destruct (f s (bk_tree (w_broker (cn_world x)))) as [s' k']. injection Hnx as <- <-. cbn [fst snd outs_of app].
      destruct (solo c k' _); reflexivity. }
    rewrite Hsolo. cbn [fst snd]. split; [econstructor; [exact Hs0|exact Hr]|]. split; [|constructor; [exact I|exact Hst]].
    rewrite <- Ho. destruct o; simpl; rewrite ?Nat.eqb_refl; reflexivity.
Qed.
(** The outputs of all connections. *)
Definition all_outputs (tr : list item) : list output :=
  flat_map (fun i => match i with IStep _ (OOut o) => [o] | _ => [] end) tr.
Definition all_events (tr : list item) : list event := flat_map (fun i => match i with IStart e => [e] | _ => [] end) tr.
Lemma one_task_outputs cfg x tr x' c : mruns cfg x tr x' -> only_steps tr -> (forall d, d <> c -> aget Nat.eqb d (cn_tasks x) = None) ->
  all_outputs tr = outputs_of c tr /\ all_events tr = [].
Proof.
  induction 1 as [x|x m x1 i tr x2 Hs Hr IH]; intros Ho Hc; [split; reflexivity|].
  inversion Ho as [|? ? H1 H2]; subst.
  apply mstep_inv in Hs. destruct Hs as [(e & H & -> & _)|[(d & H & -> & Hf & ->)|(d & k' & o & k1 & H & -> & Hk' & Hnx & Hmay & ->)]].
  - destruct H1.
  - apply IH; [exact H2|]. cbn [cn_tasks]. intros d' Hd'. rewrite aget_adel by apply nateqb_spec.
    destruct (Nat.eqb d' d); [reflexivity|]. apply Hc, Hd'.
  - assert (d = c) as -> by (destruct (Nat.eq_dec d c); [assumption|]; rewrite Hc in Hk' by assumption; discriminate).
    destruct IH as [IH1 IH2]; [exact H2| |].
    { cbn [cn_tasks]. intros d' Hd'. rewrite aget_aput by apply nateqb_spec.
      destruct (Nat.eqb_spec d' c); [congruence|]. apply Hc, Hd'. }
    split; [|exact IH2]. unfold all_outputs, outputs_of in *. simpl. rewrite IH1. destruct o; try reflexivity. rewrite Nat.eqb_refl. reflexivity.
Qed.
Lemma sequential cfg es : forall w, wf w -> ~ In ERestart es ->
  exists tr, mruns cfg (Mk_conf w [] [] []) tr (Mk_conf (fst (run cfg es w)) [] [] [])
    /\ all_outputs tr = snd (run cfg es w) /\ all_events tr = es.
Proof.
  induction es as [|e es IH]; intros w Hw He.
  - exists []. repeat split. constructor.
  - set (x1 := Mk_conf w [(event_conn e, handler cfg (aget Nat.eqb (event_conn e) (w_conns w)) e)] [] []).
    assert (Hne : e <> ERestart) by (intros ->; apply He; left; reflexivity).
    assert (Hstart : mstep cfg (Mk_conf w [] [] []) (MStart e) = Some (x1, IStart e)) by (destruct e; try reflexivity; congruence).
    assert (Hinv : inv (Mk_conf w [] [] [])).
    { split; [exact Hw|]. split; [discriminate|]. exists (fun _ => HNone). repeat split; try discriminate; try tauto.
      - destruct l; discriminate.
      - intros []. }
    destruct (solo_runs cfg (event_conn e) _ x1 (inv_step _ _ _ _ _ Hinv Hstart) eq_refl) as (tr1 & Hr1 & Ho1 & Hst1).
    cbn [cn_world x1] in *. rewrite solo_step in * by assumption.
    destruct (step cfg w e) as [w1 o1] eqn:Es. cbn [fst snd] in *.
    destruct (IH w1) as (tr2 & Hr2 & Ho2 & He2).
    { eapply step_wf; eauto. }
    { intros H. apply He. right. exact H. }
    destruct (one_task_outputs _ _ _ _ (event_conn e) Hr1 Hst1) as [Ha1 Hb1].
    { simpl. intros d Hd. destruct (Nat.eqb_spec d (event_conn e)); [congruence|reflexivity]. }
    exists (IStart e :: tr1 ++ tr2). rewrite run_cons, Es. cbn [fst snd].
    split; [|split].
    + econstructor; [exact Hstart|]. apply mruns_app. exists (Mk_conf w1 [] [] []). split; [exact Hr1|exact Hr2].
    + unfold all_outputs in *. simpl. rewrite flat_map_app. rewrite Ha1, Ho1, Ho2. reflexivity.
    + unfold all_events in *. simpl. rewrite flat_map_app. rewrite Hb1, He2. reflexivity.
Qed.
