(** Facts about what subscribers are sent when handlers run concurrently. *)
From Verif Require Import Base Utf8 Codec SpecCodec Tac Maps CodecFacts Topic SpecTopic TopicFacts Property PacketProps Packets
  TopicTree TreeFacts Storage SpecStorage StorageFacts Broker SpecBroker BrokerFacts Auth Session Server SpecServer SessionFacts ServerFacts HandlerFacts
  HistoryFacts ProvenanceFacts WorldFacts DeliveryFacts Conc SpecConc ConcFacts ConcLocks ConcRoute ConcOwn.

(** ** Handlers that leave the subscription to [f] of session [i] alone and will send the packets [l] for it *)
Fixpoint owes (c i : nat) (f : bytes) (l : list publish_packet) (k : code) : Prop :=
  match k with
  | Finish => l = []
  | Emit o k => exists l', l = deliveries c f [o] ++ l' /\ owes c i f l' k
  | Sess j g => j = i /\ forall s n, aget bytes_eqb f (se_subs (fst (g s n))) = aget bytes_eqb f (se_subs s) /\ owes c i f l (snd (g s n))
  | Sub _ k => forall n, owes c i f l (k n)
  | Walk _ k => forall ps, owes c i f l (k ps)
  | Send _ _ k | Leave k | Forget _ k | Acquire _ k | Release _ k | Detach k => owes c i f l k
  | Store _ k => forall r, owes c i f l (k r)
  | Find _ k => forall r, owes c i f l (k r)
  | New _ _ k => forall j, owes c i f l (k j)
  | Attach _ _ => False
  end.
Section Owes.
  Context (c i : nat) (f : bytes).
  Notation quiet := (owes c i f []).
  Lemma quiet_emit o k : deliveries c f [o] = [] -> quiet k -> quiet (Emit o k).
  Proof. intros Ho Hk. exists []. rewrite Ho. auto. Qed.
  Lemma quiet_sends ps m k : quiet k -> quiet (sends ps m k).
  Proof. induction ps; simpl; auto. Qed.
  Lemma quiet_publish t m k : quiet k -> quiet (publish t m k).
  Proof.
    intros H. unfold publish, route. destruct (mg_retain m); [destruct (mg_payload m) as [[|]|]|]; simpl; intros; apply quiet_sends; exact H.
  Qed.
  Lemma quiet_id k l : (forall id, owes c i f l (k id)) -> owes c i f l (client_id_of i k).
  Proof. intros H. unfold client_id_of. cbn [owes fst snd]. auto. Qed.
  Lemma quiet_end : quiet (end_code c i).
  Proof.
    unfold end_code. cbn [owes fst snd]. split; [reflexivity|]. intros s n. split; [reflexivity|].
    assert (Hd : quiet (Detach (Emit (Closed c) Finish))) by (cbn [owes]; exists []; auto).
    destruct (se_will s); [|exact Hd]. apply quiet_publish. repeat (apply quiet_id; intros). cbn [owes]. intros _. exact Hd.
  Qed.
  Lemma quiet_respond r : match r with Some (Publish _) => False | _ => True end -> quiet (respond c r).
  Proof. destruct r as [[]|]; intros H; try contradiction; try reflexivity; apply quiet_emit; reflexivity. Qed.
  Lemma quiet_save k : quiet k -> quiet (save_subscriptions i k).
  Proof. intros H. unfold save_subscriptions. apply quiet_id. intros id. cbn [owes fst snd]. auto. Qed.
  Lemma quiet_subscribe_all fs : forall k, ~ In f (map fst fs) -> (forall rs, quiet (k rs)) -> quiet (subscribe_all i fs k).
  Proof.
    induction fs as [|[g o] fs IH]; intros k Hf Hk; cbn [subscribe_all]; auto. simpl in Hf.
    destruct (validate_subscribe_filter g); [apply IH; auto|]. unfold subscribe_one. cbn [owes fst snd]. intros n r. split; [reflexivity|].
    intros s n0. split; [|apply IH; auto]. simpl. apply (aget_put_other _ beqb_spec). auto.
  Qed.
  Lemma quiet_simple h after : (forall s, aget bytes_eqb f (se_subs (snd (h s))) = aget bytes_eqb f (se_subs s)) ->
    (forall s p, fst (h s) <> Ok (Some (Publish p))) -> (forall k, quiet k -> quiet (after k)) -> quiet (simple_code c i h after).
  Proof.
    intros H1 H2 Ha. unfold simple_code. cbn [owes]. split; [reflexivity|]. intros s n. specialize (H1 s). specialize (H2 s).
    destruct (h s) as [[r|e|] s']; cbn [fst snd] in *; (split; [exact H1|]).
    - apply Ha, quiet_respond. destruct r as [[]|]; try exact I. eapply H2. reflexivity.
    - apply quiet_end.
    - cbn [owes]. exists []. auto.
  Qed.
  Lemma quiet_packet cfg k : (forall p, k = Subscribe p -> ~ In f (map fst (sb_payload p))) ->
    (forall p, k = Unsubscribe p -> ~ In f (us_payload p)) -> quiet (packet_code cfg c i k).
  Proof.
    intros Hs Hu. pose proof quiet_end as He.
    assert (Hr : forall n k', quiet k' -> quiet (remove_inflight i n k')).
    { intros n k' H. unfold remove_inflight. apply quiet_id. intros. cbn [owes]. auto. }
    destruct k as [k|k|k|k|k|k|k|k|k|k|k| | |d|k]; cbn [packet_code]; try exact He;
      try (apply quiet_simple; auto; try (intros; discriminate); fail).
    - unfold publish_code. destruct (validate_publish_topic _); [exact He|].
      destruct (pb_qos k); destruct (pb_packet_id k); try (apply quiet_publish; first [exact He|apply quiet_respond; exact I]).
      split; [reflexivity|]. intros s n1. split; [reflexivity|]. apply quiet_publish. apply quiet_respond. exact I.
    - unfold subscribe_code. cbn [owes fst snd]. split; [reflexivity|]. intros s n. split; [reflexivity|].
      apply quiet_subscribe_all; [apply Hs; reflexivity|]. intros rs. cbn [owes]. apply quiet_save. apply quiet_emit; reflexivity.
    - unfold unsubscribe_code. cbn [owes]. split; [reflexivity|]. intros s n. destruct (unsubscribe_loop _ _) as [rs subs] eqn:E. cbn [fst snd].
      destruct (unsubscribe_loop_spec _ _ _ _ E) as (_ & _ & _ & Hk & _). split; [apply Hk, Hu; reflexivity|].
      apply quiet_save. apply quiet_emit; reflexivity.
    - apply quiet_respond. exact I.
    - unfold disconnect_code. cbn [owes fst snd]. split; [reflexivity|]. intros s n. split; [reflexivity|]. apply quiet_id. intros. cbn [owes]. intros _. exact He.
    - apply quiet_simple; auto.
      + intros s. destruct (handle_auth (sv_manager cfg) k s) as [r s'] eqn:E. unfold handle_auth in E. cbn [snd].
        destruct (sv_manager cfg) as [am|]; [|inv E; auto]. destruct (au_reason k); try (inv E; auto; fail).
        * destruct (se_auth s); [|inv E; auto]. destruct (aup_auth_data _); [|inv E; auto].
          destruct (continue_auth _ _ _); inv E; auto.
        * destruct (aup_auth_method _); [|inv E; auto]. destruct (supports_method _ _); simpl in E; [|inv E; auto].
          destruct (start_auth _ _ _); inv E; auto.
      + intros s p E. unfold handle_auth in E.
        destruct (sv_manager cfg) as [am|]; [|discriminate]. destruct (au_reason k); try discriminate.
        * destruct (se_auth s); [|discriminate]. destruct (aup_auth_data _); [|discriminate].
          destruct (continue_auth _ _ _); discriminate.
        * destruct (aup_auth_method _); [|discriminate]. destruct (supports_method _ _); simpl in E; [|discriminate].
          destruct (start_auth _ _ _); discriminate.
  Qed.
  (** What is left of process_outgoing once the message has been taken. *)
  Definition out_rest (p : publish_packet) : code :=
    match pb_packet_id p, pb_qos p with
    | Some pid, (AtLeastOnce | ExactlyOnce) =>
        client_id_of i (fun id => Store (StoreInflight id pid (Mk_inflight pid (pb_topic p) (pb_payload p) (pb_qos p) (pb_dup p)))
          (fun _ => Emit (Sent c (Publish p)) Finish))
    | _, _ => Emit (Sent c (Publish p)) Finish
    end.
  Lemma owes_rest p : owes c i f (deliveries c f [Sent c (Publish p)]) (out_rest p).
  Proof.
    assert (H : owes c i f (deliveries c f [Sent c (Publish p)]) (Emit (Sent c (Publish p)) Finish)).
    { exists []. rewrite app_nil_r. split; reflexivity. }
    unfold out_rest. destruct (pb_packet_id p); [destruct (pb_qos p)|]; try exact H; apply quiet_id; intros; cbn [owes]; intros _; exact H.
  Qed.
  Lemma quiet_out g : g <> f -> quiet (out_code c i g).
  Proof.
    intros Hg. unfold out_code. cbn [owes]. split; [reflexivity|]. intros s n. unfold process_outgoing.
    destruct (aget bytes_eqb g (se_subs s)) as [st|]; [|split; reflexivity].
    destruct (stream_next _ st) as [[m st']|]; [|split; reflexivity].
    assert (Ha : forall u, aget bytes_eqb f (aput bytes_eqb g u (se_subs s)) = aget bytes_eqb f (se_subs s)).
    { intros u. apply (aget_put_other _ beqb_spec). auto. }
    assert (Hq : quiet (out_rest (outgoing_publish g m))).
    { pose proof (owes_rest (outgoing_publish g m)) as H. simpl in H. rewrite Nat.eqb_refl in H.
      destruct (bytes_eqb g f) eqn:E; [apply beqb_spec in E; contradiction|]. exact H. }
    destruct (mg_packet_id m) as [pid|] eqn:Ei; [destruct (mg_qos m) eqn:Eq|]; cbn [fst snd]; (split; [apply Ha|]); try exact Hq.
    cbn [owes]. exists []. auto.
  Qed.
End Owes.

(** ** One subscription *)
Section Subscription.
  Context (c i : nat) (f : bytes) (cfg : config) (ret R0 L0 : list message) (post : list item).
  Definition waiting_ok : Prop := keeping_up c f ret R0 post.
  Definition dstate (owed : list publish_packet) (tr : list item) (y : conf) : Prop :=
    exists s st dn live,
      nth_error (w_heap (cn_world y)) i = Some s /\ aget bytes_eqb f (se_subs s) = Some st /\
      node_at (levels f) (tree y) <> None /\ sent_to (cn_world y) f = L0 ++ R0 ++ routed f tr /\
      ret = dn ++ st_retained st /\ Forall2 (sent_as f) (deliveries c f (outputs_of c tr) ++ owed) (dn ++ live) /\
      (st_retained st <> [] -> live = []) /\
      (length L0 <= st_next st <= length (L0 ++ R0 ++ routed f tr))%nat /\
      subseq live (firstn (st_next st - length L0) (R0 ++ routed f tr)) /\
      (waiting_ok -> live = firstn (st_next st - length L0) (R0 ++ routed f tr)) /\
      (aget Nat.eqb c (w_conns (cn_world y)) = None \/ aget Nat.eqb c (w_conns (cn_world y)) = Some i).
  Definition dtask (owed : list publish_packet) (y : conf) : Prop :=
    match aget Nat.eqb c (cn_tasks y) with
    | None => owed = []
    | Some k => (k = out_code c i f /\ owed = []) \/ owes c i f owed k
    end.
  Definition dinv (tr : list item) (y : conf) : Prop := exists owed, dstate owed tr y /\ dtask owed y.
  Definition quiet_item (j : item) : Prop :=
    match j with
    | IStart e => (forall p, e = EPacket c (Subscribe p) -> ~ In f (map fst (sb_payload p))) /\
        (forall p, e = EPacket c (Unsubscribe p) -> ~ In f (us_payload p)) /\ (forall k u a, e <> EFirst c k u a)
    | IStep d (OSess j _ _) => j = i -> d = c
    | _ => True
    end.
  Lemma heap_other d o w s : nth_error (w_heap w) i = Some s -> (forall a b, o <> OSess i a b) -> nth_error (w_heap (apply d o w)) i = Some s.
  Proof.
    intros H Ho. destruct o as [| j a b| | | | | | | |id j s0| | | | ]; try exact H; simpl.
    - rewrite list_set_other; [exact H|]. intros ->. eapply Ho. reflexivity.
    - rewrite nth_error_app1; [exact H|]. apply nth_error_Some. congruence.
  Qed.
  Lemma heap_sess d a b w s : nth_error (w_heap w) i = Some s -> nth_error (w_heap (apply d (OSess i a b) w)) i = Some b.
  Proof. intros H. simpl. eapply put_nth, H. Qed.
  Lemma owes_next l k w o k1 : owes c i f l k -> next k w = Some (o, k1) ->
    exists l', l = deliveries c f (outs_of o) ++ l' /\ owes c i f l' k1 /\ (forall j, o <> OAttach j) /\
      forall a b, o = OSess i a b -> nth_error (w_heap w) i = Some a /\ aget bytes_eqb f (se_subs b) = aget bytes_eqb f (se_subs a).
  Proof.
    destruct k; cbn [owes Conc.next]; intros H E; try discriminate;
      try (injection E as <- <-; exists l; repeat split; auto; discriminate); try contradiction.
    - injection E as <- <-. destruct H as (l' & -> & H). exists l'. repeat split; auto; discriminate.
    - destruct H as [-> H]. destruct (nth_error (w_heap w) i) as [s|] eqn:Es; [|discriminate]. specialize (H s (bk_tree (w_broker w))).
      destruct (f0 s (bk_tree (w_broker w))) as [s' k']. injection E as <- <-. exists l. cbn [fst snd] in H. destruct H as [H1 H2].
      repeat split; auto; try discriminate; injection H; congruence.
  Qed.

  Lemma routed_snoc tr j : routed f (tr ++ [j]) = routed f tr ++ match j with IStep _ o => sent_by f o | _ => [] end.
  Proof. rewrite routed_app. simpl. rewrite app_nil_r. reflexivity. Qed.
  Lemma outputs_snoc tr j : outputs_of c (tr ++ [j]) = outputs_of c tr ++ match j with IStep d o => if Nat.eqb d c then outs_of o else [] | _ => [] end.
  Proof. rewrite outputs_app. f_equal. destruct j as [e|d o|d]; try reflexivity. simpl. destruct o, (Nat.eqb d c); reflexivity. Qed.
  (** A step that leaves the subscription alone. *)
  Lemma dinv_same tr y j y1 owed : 
    (forall s st, nth_error (w_heap (cn_world y)) i = Some s -> aget bytes_eqb f (se_subs s) = Some st ->
       exists s', nth_error (w_heap (cn_world y1)) i = Some s' /\ aget bytes_eqb f (se_subs s') = Some st) ->
    (node_at (levels f) (tree y) <> None -> node_at (levels f) (tree y1) <> None /\
       sent_to (cn_world y1) f = sent_to (cn_world y) f ++ match j with IStep _ o => sent_by f o | _ => [] end) ->
    (aget Nat.eqb c (w_conns (cn_world y)) = None \/ aget Nat.eqb c (w_conns (cn_world y)) = Some i ->
     aget Nat.eqb c (w_conns (cn_world y1)) = None \/ aget Nat.eqb c (w_conns (cn_world y1)) = Some i) ->
    dstate (deliveries c f (match j with IStep d o => if Nat.eqb d c then outs_of o else [] | _ => [] end) ++ owed) tr y ->
    dstate owed (tr ++ [j]) y1.
  Proof.
    intros Hs Hn Hc (s & st & dn & live & D1 & D2 & D3 & D4 & D5 & D6 & D7 & D8 & D9 & D10 & D11).
    destruct (Hs _ _ D1 D2) as (s' & E1 & E2). destruct (Hn D3) as [E3 E4].
    assert (Hf : firstn (st_next st - length L0) (R0 ++ routed f (tr ++ [j])) = firstn (st_next st - length L0) (R0 ++ routed f tr)).
    { rewrite routed_snoc, app_assoc. rewrite firstn_app. rewrite app_length in D8.
      replace (st_next st - length L0 - length (R0 ++ routed f tr))%nat with O by lia. simpl. apply app_nil_r. }
    exists s', st, dn, live. repeat split; auto.
    - rewrite E4, D4, routed_snoc. rewrite <- !app_assoc. reflexivity.
    - rewrite outputs_snoc, deliveries_app, <- app_assoc. exact D6.
    - lia.
    - rewrite routed_snoc. rewrite !app_length in *. lia.
    - rewrite Hf. exact D9.
    - rewrite Hf. exact D10.
  Qed.
  Lemma poll_live n pos m R live : (length L0 <= n <= length (L0 ++ R))%nat -> (n <= pos)%nat -> nth_error (L0 ++ R) pos = Some m ->
    subseq live (firstn (n - length L0) R) -> subseq (live ++ [m]) (firstn (S pos - length L0) R).
  Proof.
    intros Hn Hp Hm Hs. rewrite nth_error_app2 in Hm by lia.
    replace (S pos - length L0)%nat with (S (pos - length L0)) by lia. rewrite (firstn_S_nth _ _ _ Hm).
    apply subseq_app; [|apply subseq_refl].
    rewrite <- (firstn_skipn (n - length L0) (firstn (pos - length L0) R)). rewrite firstn_firstn.
    replace (Nat.min (n - length L0) (pos - length L0)) with (n - length L0)%nat by lia. apply subseq_app_r. exact Hs.
  Qed.
  Lemma forall2_len {A B} (P : A -> B -> Prop) a b : Forall2 P a b -> length a = length b.
  Proof. induction 1; simpl; congruence. Qed.
  Definition good_qos : Prop := Forall (fun m => mg_qos m <> QInvalid) (ret ++ R0 ++ routed f post).
  Lemma dinv_step tr y m y1 j : good_qos -> dinv tr y -> quiet_item j -> mstep cfg y m = Some (y1, j) -> (exists rest, post = tr ++ rest) -> dinv (tr ++ [j]) y1.
  Proof.
    intros Hg Hd Hq Hs Hp. apply mstep_inv in Hs.
    destruct Hs as [(e & -> & -> & He & Hn & ->)|[(d & -> & -> & Hk & ->)|(d & k0 & o & k1 & -> & -> & Hk & Hn & Hm & ->)]].
    - destruct Hd as (owed & Hd & Ho). exists owed. split.
      + eapply dinv_same; [| | |exact Hd]; cbn [cn_world cn_tasks]; eauto. rewrite app_nil_r. auto.
      + unfold dtask in *. cbn [cn_tasks]. destruct (Nat.eq_dec (event_conn e) c) as [E|E].
        * assert (Hc : aget Nat.eqb c (w_conns (cn_world y)) = None \/ aget Nat.eqb c (w_conns (cn_world y)) = Some i)
            by (destruct Hd as (s & st & dn & live & Hd); apply Hd).
          rewrite E in *. rewrite Hn in Ho. subst owed. rewrite (aget_put_same _ nateqb_spec). destruct Hq as (Q1 & Q2 & Q3).
          destruct e as [c0 first u a|c0 k|c0 g|c0|c0|]; cbn [event_conn] in *; try (exfalso; apply He; reflexivity); subst c0.
          -- exfalso. eapply Q3. reflexivity.
          -- destruct Hc as [->| ->]; cbn [handler]; right; [reflexivity|]. apply quiet_packet; intros p ->; [eapply Q1|eapply Q2]; reflexivity.
          -- destruct Hc as [->| ->]; cbn [handler]; [right; reflexivity|]. destruct (list_eq_dec N.eq_dec g f) as [->|Hf]; [left; auto|].
             right. apply quiet_out, Hf.
          -- destruct Hc as [->| ->]; cbn [handler]; right; [reflexivity|]. apply quiet_end.
          -- destruct Hc as [->| ->]; cbn [handler]; right; [reflexivity|]. cbn [owes]. exists []. auto.
        * rewrite tasks_other by exact E. exact Ho.
    - destruct Hd as (owed & Hd & Ho). exists owed. split.
      + eapply dinv_same; [| | |exact Hd]; cbn [cn_world cn_tasks]; eauto. rewrite app_nil_r. auto.
      + unfold dtask in *. cbn [cn_tasks]. destruct (Nat.eq_dec d c) as [->|E].
        * rewrite (aget_del_same _ nateqb_spec). rewrite Hk in Ho. destruct Ho as [[Ho _]|Ho]; [discriminate|exact Ho].
        * rewrite tasks_del by exact E. exact Ho.
    - assert (Htree : node_at (levels f) (tree y) <> None -> node_at (levels f) (bk_tree (w_broker (apply d o (cn_world y)))) <> None /\
        sent_to (apply d o (cn_world y)) f = sent_to (cn_world y) f ++ sent_by f o).
      { intros H. split; [apply tree_apply, H|apply log_apply, H]. }
      destruct (Nat.eq_dec d c) as [->|E].
      + destruct Hd as (owed & Hd & D12). pose proof Hd as (s & st & dn & live & D1 & D2 & D3 & D4 & D5 & D6 & D7 & D8 & D9 & D10 & D11).
        unfold dtask in D12. rewrite Hk in D12. destruct D12 as [[-> ->]|D12].
        * (* polling *)
          unfold out_code in Hn. cbn [Conc.next] in Hn. rewrite D1 in Hn. unfold process_outgoing in Hn. rewrite D2 in Hn. cbn [bk_tree] in Hn.
          change (log_at (levels f) (bk_tree (w_broker (cn_world y)))) with (sent_to (cn_world y) f) in Hn.
          rewrite app_nil_r in D6.
          destruct (stream_next (sent_to (cn_world y) f) st) as [[mm st']|] eqn:Est.
          2:{ injection Hn as <- <-. destruct (Htree D3) as [T1 T2].
              exists []. split; [|unfold dtask; cbn [cn_tasks]; rewrite (aget_put_same _ nateqb_spec); right; reflexivity].
              exists s, st, dn, live. cbn [cn_world cn_tasks]. rewrite outputs_snoc, routed_snoc.
              cbn [sent_by outs_of]. rewrite Nat.eqb_refl. rewrite !app_nil_r.
              cbn [sent_by] in T2. rewrite app_nil_r in T2.
              assert (T3 := heap_sess c s s _ _ D1). rewrite <- T2 in D4. repeat split; auto; lia. }
          assert (Hmm : mg_qos mm <> QInvalid /\ exists dn' live', ret = dn' ++ st_retained st' /\ dn' ++ live' = (dn ++ live) ++ [mm] /\
             (st_retained st' <> [] -> live' = []) /\ (length L0 <= st_next st' <= length (L0 ++ R0 ++ routed f tr))%nat /\
             subseq live' (firstn (st_next st' - length L0) (R0 ++ routed f tr)) /\
             (waiting_ok -> live' = firstn (st_next st' - length L0) (R0 ++ routed f tr))).
          { unfold good_qos in Hg. rewrite Forall_forall in Hg. rewrite stream_next_eq in Est. rewrite D4 in Est. destruct (st_retained st) as [|m0 ms] eqn:Er.
            - destruct (nth_error _ _) as [m1|] eqn:En in Est; [|discriminate]. injection Est as <- <-. cbn [st_retained st_next].
              set (pos := Nat.max _ _) in *.
              assert (Hlt : (pos < length (L0 ++ R0 ++ routed f tr))%nat) by (apply nth_error_Some; congruence).
              assert (Hpos : (st_next st <= pos)%nat) by (unfold pos; lia).
              split.
              { apply Hg. apply in_or_app. right. rewrite nth_error_app2 in En by lia. apply nth_error_In in En.
                destruct Hp as [rest ->]. rewrite routed_app, app_assoc. apply in_or_app. left. exact En. }
              exists dn, (live ++ [m1]). split; [exact D5|]. split; [rewrite app_assoc; reflexivity|]. split; [congruence|]. split; [lia|].
              split; [eapply poll_live; eauto; lia|].
              intros W. specialize (D10 W). destruct Hp as [rest Hp]. specialize (W tr rest Hp).
              apply forall2_len in D6. rewrite D6 in W. rewrite D5, app_nil_r, app_length in W.
              assert (Hll : length live = (st_next st - length L0)%nat).
              { rewrite D10, firstn_length. rewrite app_length in D8. lia. }
              assert (Hpe : pos = st_next st). { unfold pos. repeat rewrite app_length in W. repeat rewrite app_length in D8. repeat rewrite app_length. unfold capacity. lia. }
              rewrite Hpe in En. rewrite nth_error_app2 in En by lia. rewrite Hpe.
              replace (S (st_next st) - length L0)%nat with (S (st_next st - length L0)) by lia. rewrite (firstn_S_nth _ _ _ En), <- D10. reflexivity.
            - injection Est as <- <-. cbn [st_retained st_next]. split; [apply Hg; rewrite D5, !in_app_iff; simpl; auto|].
              rewrite D7 in * by discriminate. exists (dn ++ [m0]), []. split; [rewrite <- app_assoc; exact D5|]. split; [rewrite !app_nil_r; reflexivity|].
              split; [auto|]. split; [exact D8|]. split; assumption. }
          destruct Hmm as (Hqm & dn' & live' & N5 & N6 & N7 & N8 & N9 & N10).
          set (p := outgoing_publish f mm) in *.
          assert (Hsm : sent_as f p mm) by (repeat split).
          assert (Hk1 : exists s', o = OSess i s s' /\ k1 = out_rest c i p /\ aget bytes_eqb f (se_subs s') = Some st').
          { assert (A : forall u, aget bytes_eqb f (aput bytes_eqb f u (se_subs s)) = Some u) by (intros; apply (aget_put_same _ beqb_spec)).
            destruct (mg_packet_id mm) as [pid|] eqn:Ei; [destruct (mg_qos mm) eqn:Eq|]; try congruence; injection Hn as <- <-;
              eexists; (split; [reflexivity|]); (split; [|apply A]); unfold out_rest; cbn [p outgoing_publish pb_packet_id pb_qos]; rewrite ?Ei, ?Eq; reflexivity. }
          destruct Hk1 as (s' & -> & -> & Hs'). destruct (Htree D3) as [T1 T2]. cbn [sent_by] in T2. rewrite app_nil_r in T2.
          assert (Hdel : deliveries c f [Sent c (Publish p)] = [p]).
          { simpl. rewrite Nat.eqb_refl. change (pb_topic p) with f. replace (bytes_eqb f f) with true by (symmetry; apply beqb_spec; reflexivity). reflexivity. }
          exists [p]. split; [|unfold dtask; cbn [cn_tasks]; rewrite (aget_put_same _ nateqb_spec); right; rewrite <- Hdel; apply owes_rest].
          exists s', st', dn', live'. cbn [cn_world cn_tasks]. rewrite outputs_snoc, routed_snoc.
          cbn [sent_by outs_of]. rewrite Nat.eqb_refl. rewrite !app_nil_r. rewrite N6.
          rewrite <- T2 in D4. assert (T3 := heap_sess c s s' _ _ D1). repeat split; auto; try lia.
          apply Forall2_app; [exact D6|constructor; [exact Hsm|constructor]].
        * destruct (owes_next _ _ _ _ _ D12 Hn) as (l' & Hl & Hk1 & Ha & Hses).
          destruct (Htree D3) as [T1 T2].
          exists l'. split; [|unfold dtask; cbn [cn_tasks]; rewrite (aget_put_same _ nateqb_spec); right; exact Hk1].
          eapply dinv_same; [| | |rewrite Nat.eqb_refl, <- Hl; exact Hd]; cbn [cn_world cn_tasks].
          -- intros s0 st0 H1 H2. destruct o as [| j0 a b| | | | | | | | | | | |];
               try (exists s0; split; [apply heap_other; [exact H1|discriminate]|exact H2]).
             destruct (Nat.eq_dec j0 i) as [->|Ej].
             ++ destruct (Hses _ _ eq_refl) as [H3 H4]. exists b. split; [eapply heap_sess; exact H1|]. congruence.
             ++ exists s0. split; [apply heap_other; [exact H1|intros ? ? [=]; congruence]|exact H2].
          -- intros _. split; assumption.
          -- intros Hc. destruct o; try exact Hc; simpl.
             ++ exfalso. eapply Ha. reflexivity.
             ++ left. apply (aget_del_same _ nateqb_spec).
      + destruct Hd as (owed & Hd & Ho). exists owed. split.
        * eapply dinv_same; [| | |destruct (Nat.eqb_spec d c); [contradiction|exact Hd]]; cbn [cn_world cn_tasks].
          -- intros s0 st0 H1 H2. exists s0. split; [|exact H2]. apply heap_other; [exact H1|]. intros a b ->. apply E, Hq. reflexivity.
          -- exact Htree.
          -- intros Hc. rewrite conns_apply by auto. exact Hc.
        * unfold dtask in *. cbn [cn_tasks]. rewrite tasks_other by exact E. exact Ho.
  Qed.
  Lemma dinv_runs tr1 : forall tr y y1, mruns cfg y tr1 y1 -> good_qos -> Forall quiet_item tr1 -> (exists rest, post = tr ++ tr1 ++ rest) ->
    dinv tr y -> dinv (tr ++ tr1) y1.
  Proof.
    induction tr1 as [|j tr1 IH]; intros tr y y1 Hr Hg Hq [rest Hp] Hd; inversion Hr as [|? m y2 ? ? ? Hs Hr1]; subst; [rewrite app_nil_r; exact Hd|].
    inversion Hq; subst. change (j :: tr1) with ([j] ++ tr1). rewrite app_assoc. eapply IH; eauto.
    - exists rest. rewrite Hp. rewrite <- app_assoc. reflexivity.
    - eapply dinv_step; eauto.
  Qed.
End Subscription.

(** ** The SUBSCRIBE handler *)
Definition keeps (i : nat) (f : bytes) (o : obs) : Prop :=
  match o with OSess j a b => j = i -> aget bytes_eqb f (se_subs b) = aget bytes_eqb f (se_subs a) | _ => True end.
Definition stays (o : obs) : Prop := match o with OAttach _ | ODetach => False | _ => True end.
Lemma wps_sub_other i f fs : forall k (Q : list obs -> Prop), ~ In f (map fst fs) ->
  (forall l0 rs, Forall (keeps i f) l0 -> wps (fun l => Q (l0 ++ l)) (k rs)) -> wps Q (subscribe_all i fs k).
Proof.
  induction fs as [|[g o] fs IH]; intros k Q Hf HQ; cbn [subscribe_all].
  - apply (HQ [] []). constructor.
  - simpl in Hf. destruct (validate_subscribe_filter g).
    + apply IH; [tauto|]. intros l0 rs H. apply HQ, H.
    + unfold subscribe_one. intros n m s n1. cbn [fst snd]. apply IH; [tauto|]. intros l0 rs H.
      refine (wps_mono _ _ _ _ (HQ (OSub g n :: OStore (GetRetained g) (fst (mem_step m (GetRetained g))) :: OSess i s _ :: l0) _ _)); [intros l Hl; exact Hl|].
      repeat constructor; auto. simpl. intros _. apply (aget_put_other _ beqb_spec). intros E; apply Hf; left; congruence.
Qed.
Lemma wps_sub_all i f fs : validate_subscribe_filter f = None -> forall k (Q : list obs -> Prop), In f (map fst fs) ->
  (forall l0 n ms s s' l1 rs, aget bytes_eqb f (se_subs s') = Some (Mk_stream ms n) -> Forall (keeps i f) l1 ->
     wps (fun l => Q (l0 ++ OSub f n :: OStore (GetRetained f) (RMessages ms) :: OSess i s s' :: l1 ++ l)) (k rs)) ->
  wps Q (subscribe_all i fs k).
Proof.
  intros Hv. induction fs as [|[g o] fs IH]; intros k Q Hf HQ; [contradiction|]. cbn [subscribe_all].
  destruct (in_dec (list_eq_dec N.eq_dec) f (map fst fs)) as [Hin|Hout].
  - destruct (validate_subscribe_filter g).
    + apply IH; auto.
    + unfold subscribe_one. intros n m s n1. cbn [fst snd]. apply IH; [exact Hin|]. intros l0 n2 ms s2 s2' l1 rs H1 H2.
      refine (wps_mono _ _ _ _ (HQ (OSub g n :: OStore (GetRetained g) (fst (mem_step m (GetRetained g))) :: OSess i s _ :: l0) _ _ _ _ _ _ H1 H2)). intros l Hl. exact Hl.
  - destruct Hf as [Hf|Hf]; [|contradiction]. cbn [fst] in Hf. subst g. rewrite Hv. unfold subscribe_one. intros n m s n1. cbn [fst snd].
    apply (wps_sub_other i f); [exact Hout|]. intros l1 rs H1.
    destruct (fst (mem_step m (GetRetained f))) as [| | |ms| | |] eqn:Em; try discriminate Em.
    refine (wps_mono _ _ _ _ (HQ [] n ms s _ l1 _ _ H1)); [intros l Hl; exact Hl|]. simpl. apply (aget_put_same _ beqb_spec).
Qed.
Definition sub_shape (i : nat) (f : bytes) (ls : list obs) : Prop :=
  exists l0 n ms s s' l1, ls = l0 ++ OSub f n :: OStore (GetRetained f) (RMessages ms) :: OSess i s s' :: l1
    /\ aget bytes_eqb f (se_subs s') = Some (Mk_stream ms n) /\ Forall (keeps i f) l1.
Lemma subscribe_shape c i f p : topic_filter f -> In f (map fst (sb_payload p)) -> wps (sub_shape i f) (subscribe_code c i p).
Proof.
  intros Hf Hin. assert (Hv : validate_subscribe_filter f = None) by (apply subscribe_filter_iff; [apply topic_filter_utf8|]; exact Hf).
  unfold subscribe_code. intros s n. cbn [fst snd]. apply (wps_sub_all i f); auto. intros l0 n0 ms s0 s0' l1 rs H1 H2.
  cbn [wps]. unfold save_subscriptions, client_id_of. intros s1 t1 s2 t2 m. cbn [fst snd].
  match goal with |- wps ?Q ?k => change (Q [OOut (Sent c (SubAck (Mk_suback_packet (c_protocol_version (se_connect s)) (sb_packet_id p) None rs)))]) end.
  cbn beta. eexists (OAcquire (LSession i) :: OSess i s s :: l0), n0, ms, s0, s0', _. split; [reflexivity|]. split; [exact H1|].
  apply Forall_app. split; [exact H2|]. repeat constructor; simpl; auto.
Qed.
Lemma subscribe_stays c i p : wps (Forall stays) (subscribe_code c i p).
Proof.
  assert (Hall : forall fs k (Q : list obs -> Prop), (forall l0 rs, Forall stays l0 -> wps (fun l => Q (l0 ++ l)) (k rs)) -> wps Q (subscribe_all i fs k)).
  { induction fs as [|[g o] fs IH]; intros k Q HQ; cbn [subscribe_all]; [apply (HQ [] []); constructor|].
    destruct (validate_subscribe_filter g).
    - apply IH. intros. apply HQ. assumption.
    - unfold subscribe_one. intros n m s n1. cbn [fst snd]. apply IH. intros l0 rs H.
      refine (wps_mono _ _ _ _ (HQ (OSub g n :: OStore (GetRetained g) (fst (mem_step m (GetRetained g))) :: OSess i s _ :: l0) _ _)); [intros l Hl; exact Hl|].
      repeat constructor; auto. }
  unfold subscribe_code. intros s n. cbn [fst snd]. apply Hall. intros l0 rs H. unfold save_subscriptions, client_id_of. intros s1 t1 s2 t2 m. cbn [fst snd].
  match goal with |- wps ?Q ?k => change (Q [OOut (Sent c (SubAck (Mk_suback_packet (c_protocol_version (se_connect s)) (sb_packet_id p) None rs)))]) end.
  cbn beta. repeat (constructor; [exact I|]). apply Forall_app. split; [exact H|]. repeat constructor; simpl; auto.
Qed.

(** ** Along a run *)
Lemma conns_runs cfg x tr x' c : mruns cfg x tr x' -> Forall stays (steps_of c tr) -> aget Nat.eqb c (w_conns (cn_world x')) = aget Nat.eqb c (w_conns (cn_world x)).
Proof.
  induction 1 as [x|x m x1 i tr x2 Hs Hr IH]; intros H; [reflexivity|]. apply mstep_inv in Hs.
  destruct Hs as [(e & -> & -> & He & Hi & ->)|[(d & -> & -> & Hd & ->)|(d & k0 & o & k1 & -> & -> & Hd & Hn & Hm & ->)]]; auto.
  simpl in H. destruct (Nat.eqb_spec d c) as [->|E].
  - inversion H; subst. rewrite IH by assumption. cbn [cn_world]. destruct o; try reflexivity; contradiction.
  - rewrite IH by exact H. cbn [cn_world]. apply conns_apply. auto.
Qed.
Lemma keep_runs cfg x tr x' i f s st : mruns cfg x tr x' -> (forall d o, In (IStep d o) tr -> keeps i f o) ->
  nth_error (w_heap (cn_world x)) i = Some s -> aget bytes_eqb f (se_subs s) = Some st ->
  exists s', nth_error (w_heap (cn_world x')) i = Some s' /\ aget bytes_eqb f (se_subs s') = Some st.
Proof.
  intros H. revert s. induction H as [x|x m x1 j tr x2 Hs Hr IH]; intros s Hk H1 H2; [eauto|]. apply mstep_inv in Hs.
  assert (Hk' : forall d o, In (IStep d o) tr -> keeps i f o) by (intros d o Hi; apply (Hk d); right; exact Hi).
  destruct Hs as [(e & -> & -> & He & Hi & ->)|[(d & -> & -> & Hd & ->)|(d & k0 & o & k1 & -> & -> & Hd & Hn & Hm & ->)]]; eauto.
  specialize (Hk d o (or_introl eq_refl)). destruct o as [| j0 a b| | | | | | | | | | | |];
     try (eapply IH; [exact Hk'|apply heap_other; [exact H1|discriminate]|exact H2]).
  destruct (Nat.eq_dec j0 i) as [->|Ej].
  - eapply IH; [exact Hk'|cbn [cn_world]; eapply heap_sess; exact H1|]. rewrite (Hk eq_refl). rewrite <- H2. f_equal. f_equal.
    (* the session read is the one there *)
    destruct k0; cbn [Conc.next] in Hn; try discriminate. destruct (nth_error (w_heap (cn_world x)) i0) as [s0|] eqn:E0; [|discriminate].
    destruct (f0 s0 _) as [s1 k']. injection Hn as -> -> -> ->. congruence.
  - eapply IH; [exact Hk'|apply heap_other; [exact H1|intros ? ? [=]; congruence]|exact H2].
Qed.
Lemma task_still cfg x tr x' c k : mruns cfg x tr x' -> aget Nat.eqb c (cn_tasks x) = Some k -> steps_of c tr = [] -> ~ In (IEnd c) tr ->
  aget Nat.eqb c (cn_tasks x') = Some k.
Proof.
  induction 1 as [x|x m x1 j tr x2 Hs Hr IH]; intros Hk H1 H2; [exact Hk|]. apply mstep_inv in Hs.
  destruct Hs as [(e & -> & -> & He & Hi & ->)|[(d & -> & -> & Hd & ->)|(d & k0 & o & k1 & -> & -> & Hd & Hn & Hm & ->)]].
  - apply IH; [cbn [cn_tasks]; rewrite tasks_other; [exact Hk|congruence]|exact H1|intros H; apply H2; right; exact H].
  - apply IH; [cbn [cn_tasks]; rewrite tasks_del; [exact Hk|intros ->; apply H2; left; reflexivity]|exact H1|intros H; apply H2; right; exact H].
  - simpl in H1. destruct (Nat.eqb_spec d c) as [->|E]; [discriminate|].
    apply IH; [cbn [cn_tasks]; rewrite tasks_other; [exact Hk|exact E]|exact H1|intros H; apply H2; right; exact H].
Qed.

(** ** From the SUBSCRIBE on *)
Lemma owner_only {st0} cfg tr x c i : mruns cfg (conf_on st0) tr x -> lone c tr -> mine c tr i -> forall d, uses d i tr -> d = c.
Proof.
  intros Hr Hl (id & H1 & H2) d Hd. pose proof (own_runs _ _ _ _ Hr [] own_new) as Hi.
  destruct (oi_uses _ _ Hi _ _ Hd) as (id' & H3 & H4). rewrite (oi_once _ _ Hi _ _ _ H1 H3) in H2. eapply Hl; eassumption.
Qed.
Lemma uses_in d i a o s s' : In (IStep d (OSess i s s')) a -> uses d i (o ++ a).
Proof. intros H. exists s, s'. apply in_or_app. auto. Qed.
(** A handler that makes the subscription runs to its end; from there on the subscription is as [dinv] says. *)
Lemma shaped_run cfg x1 c i f K mid z post x : mruns cfg x1 mid z -> mruns cfg z (IEnd c :: post) x -> aget Nat.eqb c (cn_tasks x1) = Some K ->
  wps (sub_shape i f) K -> ~ In (IEnd c) mid -> (forall d s s', In (IStep d (OSess i s s')) (mid ++ post) -> d = c) ->
  aget Nat.eqb c (w_conns (cn_world z)) = Some i -> keeps_subscription c f post ->
  exists ret n mid1 mid2 L0 y, mid = mid1 ++ IStep c (OSub f n) :: mid2 /\ In (IStep c (OStore (GetRetained f) (RMessages ret))) mid2 /\
    mruns cfg z [IEnd c] y /\ mruns cfg y post x /\ dinv c i f ret (routed f mid2) L0 post [] y /\ Forall (quiet_item c i f) post.
Proof.
  intros Hz Hzx Hx1 Hsh Hend Honly Hc Hk.
  assert (H2 : mruns cfg x1 (mid ++ IEnd c :: post) x) by (apply mruns_app; eauto).
  destruct (run_task _ _ _ _ H2 c _ (sub_shape i f) (fun _ => True) Hx1 Hsh (always_true _)) as [_ Hs]. specialize (Hs mid post eq_refl Hend).
  destruct Hs as (l0 & n & ms & s & s' & l1 & Hl1 & Hsub & Hkeep).
  destruct (steps_split _ _ _ _ _ Hl1) as (mid1 & mid2 & Hmid & Ha & Hb).
  change (?a :: ?b :: ?l) with ([a] ++ b :: l) in Hb. destruct (steps_split _ _ _ _ _ Hb) as (m3 & m4 & Hm2 & Hc3 & Hd4).
  exists ms, n, mid1, mid2. inversion Hzx as [|? m y ? ? ? Hse Hyx]; subst i0 tr x2.
  (* the steps inside *)
  pose proof Hz as Hz'. rewrite Hmid in Hz'. destruct (step_at _ _ _ _ _ _ _ Hz') as (u & k & k1 & Hu & Hku & Hnu & _ & Hu2).
  set (u1 := Mk_conf _ _ _ _) in Hu2.
  assert (Hn : n = length (sent_to (cn_world u1) f)).
  { destruct k; cbn [Conc.next] in Hnu; try discriminate; [destruct (nth_error _ _) as [s9|]; [|discriminate]; destruct (f0 _ _); discriminate|].
    injection Hnu as -> <- <-. reflexivity. }
  assert (Hnode : node_at (levels f) (tree u1) <> None).
  { unfold tree. simpl. apply node_at_subscribe. right. exists []. rewrite app_nil_r. reflexivity. }
  exists (sent_to (cn_world u1) f), y. split; [exact Hmid|].
  split; [rewrite <- steps_in, Hb; left; reflexivity|]. split; [econstructor; [exact Hse|constructor]|].
  split; [exact Hyx|].
  assert (Hyw : cn_world y = cn_world z /\ aget Nat.eqb c (cn_tasks y) = None).
  { apply mstep_inv in Hse. destruct Hse as [(e & -> & E & _)|[(d & -> & E & Hd & ->)|(d & k0 & o & k2 & -> & E & _)]]; try discriminate.
    injection E as <-. split; [reflexivity|]. apply (aget_del_same _ nateqb_spec). }
  destruct Hyw as [Hyw Hyt]. split.
  - exists []. split; [|unfold dtask; rewrite Hyt; reflexivity].
    assert (Hlog : sent_to (cn_world z) f = sent_to (cn_world u1) f ++ routed f mid2) by (eapply log_runs; eauto).
    assert (Hnz : node_at (levels f) (tree z) <> None) by (eapply node_runs; eauto).
    rewrite Hm2 in Hu2. destruct (step_at _ _ _ _ _ _ _ Hu2) as (v & kv & kv1 & Hv & Hkv & Hnv & _ & Hv2).
    set (v1 := Mk_conf _ _ _ _) in Hv2.
    assert (Hsv : nth_error (w_heap (cn_world v)) i = Some s).
    { destruct kv; cbn [Conc.next] in Hnv; try discriminate. destruct (nth_error (w_heap (cn_world v)) i0) as [s0|] eqn:E0; [|discriminate].
      destruct (f0 s0 _) as [s2 k2]. injection Hnv as -> -> -> ->. exact E0. }
    assert (Hsv1 : nth_error (w_heap (cn_world v1)) i = Some s') by (eapply heap_sess; exact Hsv).
    assert (Hkk : forall d o, In (IStep d o) m4 -> keeps i f o).
    { intros d o Hio. destruct (Nat.eq_dec d c) as [->|Hdc].
      - rewrite Forall_forall in Hkeep. apply Hkeep. rewrite <- Hd4. apply steps_in. exact Hio.
      - destruct o; try exact I. intros ->. exfalso. apply Hdc. eapply Honly. rewrite Hmid, Hm2.
        apply in_or_app. left. apply in_or_app. right. right. apply in_or_app. right. right. exact Hio. }
    destruct (keep_runs _ _ _ _ i f _ _ Hv2 Hkk Hsv1 Hsub) as (sz & E1 & E2).
    exists sz, (Mk_stream ms n), [], []. rewrite Hyw. unfold tree in *. rewrite Hyw. rewrite Hlog. cbn [routed flat_map st_retained st_next outputs_of deliveries app].
    rewrite app_nil_r. rewrite <- Hn, Nat.sub_diag.
    repeat split; auto; try lia.
    + rewrite app_length. lia.
    + constructor.
  - apply Forall_forall. intros j Hj. destruct j as [e|d o|d]; try exact I.
    + apply Hk. exact Hj.
    + destruct o; try exact I. intros ->. eapply Honly. apply in_or_app. right. exact Hj.
Qed.
Lemma subscribed_run {st0} cfg c q f pre mid post tr x : mruns cfg (conf_on st0) tr x -> Forall texts (events_of c tr) ->
  handled c (EPacket c (Subscribe q)) pre mid post tr -> opened c pre -> In f (map fst (sb_payload q)) -> topic_filter f ->
  lone c tr -> keeps_subscription c f post ->
  exists i ret n mid1 mid2 L0 y, mid = mid1 ++ IStep c (OSub f n) :: mid2 /\ In (IStep c (OStore (GetRetained f) (RMessages ret))) mid2 /\
    mruns cfg (conf_on st0) (pre ++ IStart (EPacket c (Subscribe q)) :: mid ++ [IEnd c]) y /\
    mruns cfg y post x /\ dinv c i f ret (routed f mid2) L0 post [] y /\ Forall (quiet_item c i f) post.
Proof.
  intros Hr Ht Hh Ho Hin Hf Hl Hk. pose proof Hh as (Htr & _ & Hend). rewrite Htr in Hr. pose proof Hr as Hr0.
  apply start_at in Hr. destruct Hr as (y0 & Hy0 & Hi0 & _ & H2). cbn [event_conn] in *.
  apply (open_conns cfg c pre y0 Hy0) in Ho; [|rewrite Htr in Ht; eapply event_texts; eauto|exact Hi0]. destruct Ho as [i Hc].
  rewrite Hc in H2. cbn [handler packet_code] in H2.
  set (x1 := Mk_conf _ _ _ _) in H2.
  assert (Hx1 : aget Nat.eqb c (cn_tasks x1) = Some (subscribe_code c i q)) by apply (aget_put_same _ nateqb_spec).
  assert (Hmine : mine c tr i).
  { pose proof (own_runs _ _ _ _ Hy0 [] own_new) as Hi. rewrite Htr. apply mine_app. exact (oi_conns _ _ Hi _ _ Hc). }
  assert (Honly : forall d s s', In (IStep d (OSess i s s')) (mid ++ post) -> d = c).
  { intros d s s' H. apply (@owner_only st0 cfg tr x c i); auto; [rewrite Htr; exact Hr0|]. exists s, s'. rewrite Htr.
    apply in_or_app. right. right. apply in_app_or in H. apply in_or_app. destruct H as [H|H]; [left; exact H|right; right; exact H]. }
  destruct (run_task _ _ _ _ H2 c _ (Forall stays) (fun _ => True) Hx1 (subscribe_stays c i q) (always_true _)) as [_ Hst]. specialize (Hst mid post eq_refl Hend).
  assert (H3 : exists z, mruns cfg x1 mid z /\ mruns cfg z (IEnd c :: post) x) by (apply mruns_app in H2; destruct H2 as (z & A & B); eauto).
  destruct H3 as (z & Hz & Hzx).
  assert (Hcz : aget Nat.eqb c (w_conns (cn_world z)) = Some i) by (rewrite <- Hc; rewrite (conns_runs _ _ _ _ c Hz Hst); reflexivity).
  destruct (shaped_run _ _ _ _ _ _ _ _ _ _ Hz Hzx Hx1 (subscribe_shape c i f q Hf Hin) Hend Honly Hcz Hk) as (ret & n & mid1 & mid2 & L0 & y & G1 & G2 & G3 & G4 & G5 & G6).
  exists i, ret, n, mid1, mid2, L0, y. split; [exact G1|]. split; [exact G2|]. split; [|auto].
  apply mruns_app. exists y0. split; [exact Hy0|]. apply (mr_cons _ _ (MStart (EPacket c (Subscribe q))) x1).
  - simpl. unfold idle in Hi0. rewrite Hi0, Hc. reflexivity.
  - apply mruns_app. exists z. auto.
Qed.

(** ** What is waiting is sent when the connection polls *)
Lemma not_owes_out c i f l (s : session) : ~ owes c i f l (out_code c i f).
Proof.
  intros [_ H]. set (m := Mk_message None [] false AtMostOnce false None).
  destruct (H (set_subs [(f, Mk_stream [m] O)] s) (Node [] [])) as [H1 _].
  unfold process_outgoing in H1. cbn [set_subs se_subs aget] in H1.
  assert (E : bytes_eqb f f = true) by (apply beqb_spec; reflexivity). rewrite E in H1. cbn in H1. rewrite E in H1. cbn in H1. rewrite E in H1. discriminate.
Qed.
Lemma rest_delivers c i p : wps (fun l => flat_map outs_of l = [Sent c (Publish p)]) (out_rest c i p).
Proof.
  unfold out_rest. destruct (pb_packet_id p) as [pid|]; [destruct (pb_qos p)|]; try reflexivity; unfold client_id_of; intros s n m; reflexivity.
Qed.
Lemma poll_delivers cfg c i f ret R0 L0 post p1 y1 m p2 x : 
  good_qos f ret R0 post -> waiting_ok c f ret R0 post -> Forall (quiet_item c i f) post ->
  post = p1 ++ IStart (EOut c f) :: m ++ IEnd c :: p2 -> ~ In (IEnd c) m ->
  dinv c i f ret R0 L0 post p1 y1 -> mruns cfg y1 (IStart (EOut c f) :: m ++ IEnd c :: p2) x ->
  aget Nat.eqb c (w_conns (cn_world y1)) = Some i ->
  (length (deliveries c f (outputs_of c p1)) < length (ret ++ R0 ++ routed f p1))%nat ->
  exists q, deliveries c f (outputs_of c m) = [q].
Proof.
  intros Hg Hw Hq Hp He Hd Hr Hc Hlt.
  inversion Hr as [|? mv y2 ? ? ? Hs Hr2]; subst i0 tr x2.
  pose proof Hs as Hs0. apply mstep_inv in Hs. destruct Hs as [(e & -> & E & He1 & Hn & Hy2)|[(d & -> & E & _)|(d & k0 & o & k1 & -> & E & _)]]; try discriminate.
  injection E as <-. cbn [event_conn] in *. rewrite Hc in Hy2. cbn [handler] in Hy2.
  assert (Hd2 : dinv c i f ret R0 L0 post (p1 ++ [IStart (EOut c f)]) y2).
  { eapply dinv_step; [exact Hg|exact Hd| |exact Hs0|eauto].
    rewrite Forall_forall in Hq. apply Hq. rewrite Hp. apply in_or_app. right. left. reflexivity. }
  assert (Hk : aget Nat.eqb c (cn_tasks y2) = Some (out_code c i f)) by (rewrite Hy2; apply (aget_put_same _ nateqb_spec)).
  (* the first step of the poll *)
  assert (Hfirst : exists s s' l, steps_of c m = OSess i s s' :: l).
  { destruct (run_task _ _ _ _ Hr2 c _ (fun l => exists s s' l', l = OSess i s s' :: l') (fun _ => True) Hk) as [_ Hrun].
    - unfold out_code. intros s n. apply (wps_mono _ (fun _ => True)); [|apply wps_true]. intros l _. eexists _, _, _. reflexivity.
    - apply always_true.
    - eapply Hrun; [reflexivity|exact He]. }
  destruct Hfirst as (s & s' & l & Hl). destruct (steps_split c m [] _ _ Hl) as (m1 & m2 & Hm & Hm1 & Hm2).
  rewrite Hm in Hr2. rewrite <- app_assoc in Hr2. cbn [app] in Hr2. destruct (step_at _ _ _ _ _ _ _ Hr2) as (u & k & k1 & Hu & Hku & Hnu & _ & Hu2).
  assert (He1' : ~ In (IEnd c) m1) by (intros Hx; apply He; rewrite Hm; apply in_or_app; auto).
  assert (He2' : ~ In (IEnd c) m2) by (intros Hx; apply He; rewrite Hm; apply in_or_app; right; right; exact Hx).
  rewrite (task_still _ _ _ _ _ _ Hu Hk Hm1 He1') in Hku. injection Hku as <-.
  assert (Hdu : dinv c i f ret R0 L0 post ((p1 ++ [IStart (EOut c f)]) ++ m1) u).
  { eapply dinv_runs; eauto.
    - apply Forall_forall. intros j Hj. rewrite Forall_forall in Hq. apply Hq. rewrite Hp, Hm. apply in_or_app. right. right. apply in_or_app. left. apply in_or_app. left. exact Hj.
    - exists (IStep c (OSess i s s') :: m2 ++ IEnd c :: p2). rewrite Hp, Hm. rewrite <- !app_assoc. reflexivity. }
  destruct Hdu as (owed & (s0 & st & dn & live & D1 & D2 & D3 & D4 & D5 & D6 & D7 & D8 & D9 & D10 & D11) & Dt).
  unfold dtask in Dt. rewrite (task_still _ _ _ _ _ _ Hu Hk Hm1 He1') in Dt. destruct Dt as [[_ ->]|Dt]; [|exfalso; eapply not_owes_out; eauto].
  assert (Ho : outputs_of c ((p1 ++ [IStart (EOut c f)]) ++ m1) = outputs_of c p1).
  { rewrite !outputs_app. rewrite (outputs_steps c m1), Hm1. simpl. rewrite !app_nil_r. reflexivity. }
  rewrite Ho, app_nil_r in D6. specialize (D10 Hw).
  set (tr1 := (p1 ++ [IStart (EOut c f)]) ++ m1) in *.
  assert (Hle : (length (routed f p1) <= length (routed f tr1))%nat).
  { unfold tr1. rewrite !routed_app, !app_length. lia. }
  assert (Hnext : exists mm st', stream_next (sent_to (cn_world u) f) st = Some (mm, st') /\ mg_qos mm <> QInvalid).
  { unfold good_qos in Hg. rewrite Forall_forall in Hg. rewrite stream_next_eq. destruct (st_retained st) as [|m0 ms] eqn:Er.
    - rewrite D4. set (pos := Nat.max _ _). destruct (nth_error (L0 ++ R0 ++ routed f tr1) pos) as [mm|] eqn:En.
      + exists mm. eexists. split; [reflexivity|]. apply Hg. rewrite nth_error_app2 in En by (unfold pos; lia). apply nth_error_In in En.
        apply in_or_app. right. apply in_app_iff in En. apply in_or_app. destruct En as [En|En]; [left; exact En|right].
        rewrite Hp, Hm. unfold tr1 in En. rewrite !routed_app in En. rewrite routed_app. change (routed f (IStart ?e :: ?t)) with (routed f t).
        rewrite <- app_assoc, routed_app. cbn [routed flat_map] in En. rewrite app_nil_r in En. rewrite !in_app_iff in *. tauto.
      + exfalso. apply nth_error_None in En. apply forall2_len in D6. rewrite D5, app_nil_r in Hlt. rewrite D6 in Hlt.
        assert (Hll : length live = (st_next st - length L0)%nat) by (rewrite D10, firstn_length; rewrite app_length in D8; lia).
        unfold pos, capacity in En. repeat rewrite app_length in En. repeat rewrite app_length in Hlt. repeat rewrite app_length in D8. lia.
    - exists m0. eexists. split; [reflexivity|]. apply Hg. rewrite D5, !in_app_iff. simpl. auto. }
  destruct Hnext as (mm & st' & Hnx & Hqm).
  unfold out_code in Hnu. cbn [Conc.next] in Hnu. rewrite D1 in Hnu. unfold process_outgoing in Hnu. rewrite D2 in Hnu. cbn [bk_tree] in Hnu.
  change (log_at (levels f) (bk_tree (w_broker (cn_world u)))) with (sent_to (cn_world u) f) in Hnu. rewrite Hnx in Hnu.
  set (p := outgoing_publish f mm) in *.
  assert (Hk1 : k1 = out_rest c i p).
  { destruct (mg_packet_id mm) as [pid|] eqn:Ei; [destruct (mg_qos mm) eqn:Eq|]; try congruence; injection Hnu as _ _ <-;
      unfold out_rest; cbn [p outgoing_publish pb_packet_id pb_qos]; rewrite ?Ei, ?Eq; reflexivity. }
  subst k1.
  destruct (run_task _ _ _ _ Hu2 c _ (fun l => flat_map outs_of l = [Sent c (Publish p)]) (fun _ => True) (aget_put_same _ nateqb_spec _ _ _) (rest_delivers c i p) (always_true _)) as [_ Hrun].
  specialize (Hrun m2 p2 eq_refl He2'). exists p. rewrite outputs_steps, Hl. rewrite Hm2 in Hrun. cbn [flat_map outs_of app]. rewrite Hrun.
  simpl. rewrite Nat.eqb_refl. change (pb_topic p) with f. replace (bytes_eqb f f) with true by (symmetry; apply beqb_spec; reflexivity). reflexivity.
Qed.
