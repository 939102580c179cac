(** Proofs for SpecRoom.v. *)
From Verif Require Import Base Utf8 Codec SpecCodec Tac Maps Topic SpecTopic Packets TopicTree TreeFacts Storage Broker Auth Session SessionFacts Server SpecServer ServerFacts Conc ConcFacts SpecRoom.

(** ** Places in the tree of topics *)
Lemma apply_node c o w p : node_at p (bk_tree (w_broker (apply c o w))) <> None <->
  node_at p (bk_tree (w_broker w)) <> None \/ exists f n, o = OSub f n /\ on_the_way p f.
Proof.
  destruct o; cbn [apply]; try (split; [auto|intros [H|(f0 & n0 & E & _)]; [exact H|discriminate]]).
  - cbn [w_broker set_broker bk_tree]. rewrite node_at_subscribe. split; intros [H|H]; auto; right.
    + exists f, position. auto.
    + destruct H as (g & n & E & r & Hr). injection E as -> _. exists r. exact Hr.
  - cbn [w_broker set_broker bk_tree]. rewrite node_at_send. split; [auto|intros [H|(g & n & E & _)]; [exact H|discriminate]].
Qed.
Lemma runs_nodes cfg x tr y p : mruns cfg x tr y ->
  (node_at p (bk_tree (w_broker (cn_world y))) <> None <->
   node_at p (bk_tree (w_broker (cn_world x))) <> None \/ exists c f n, In (IStep c (OSub f n)) tr /\ on_the_way p f).
Proof.
  induction 1 as [x|x m x1 i tr x2 Hm Hr IH].
  - split; [auto|]. intros [H|(c & f & n & [] & _)]. exact H.
  - rewrite IH. clear IH. apply mstep_inv in Hm.
    destruct Hm as [(e & -> & -> & He & Ha & ->)|[(c & -> & -> & Ha & ->)|(c & k & o & k1 & -> & -> & Ha & Hn & Hy & ->)]]; cbn [cn_world].
    1,2: split; (intros [H|(c0 & f & n & H & Ho)]; [auto|right; exists c0, f, n; split; [|exact Ho]]); [right; exact H|destruct H as [H|H]; [discriminate|exact H]].
    rewrite apply_node. split.
    + intros [[H|(f & n & -> & H)]|(c0 & f & n & H & Ho)]; auto; right; [exists c, f, n; split; [left; reflexivity|exact H]|exists c0, f, n; split; [right; exact H|exact Ho]].
    + intros [H|(c0 & f & n & [H|H] & Ho)]; auto; [|right; eauto 6]. injection H as -> ->. left. right. eauto.
Qed.

(** ** Sessions *)
(** A program that makes at most [n] sessions. *)
Fixpoint news (n : nat) (k : code) : Prop :=
  match k with
  | Finish => True
  | Sess _ f => forall s t, news n (snd (f s t))
  | Sub _ k => forall p, news n (k p)
  | Walk _ k => forall ps, news n (k ps)
  | Store _ k => forall r, news n (k r)
  | Find _ k => forall r, news n (k r)
  | New _ _ k => match n with O => False | S m => forall i, news m (k i) end
  | Emit _ k | Send _ _ k | Leave k | Forget _ k | Attach _ k | Detach k | Acquire _ k | Conc.Release _ k => news n k
  end.
Definition is_new (o : obs) : bool := match o with ONew _ _ _ => true | _ => false end.
Lemma news_next n k w o k1 : news n k -> next k w = Some (o, k1) -> if is_new o then exists m, n = S m /\ news m k1 else news n k1.
Proof.
  destruct k; simpl; intros H E; try discriminate; try (injection E as <- <-; simpl; auto; fail).
  - destruct (nth_error (w_heap w) i) as [s|]; [|discriminate]. specialize (H s (bk_tree (w_broker w))). destruct (f s _). injection E as <- <-. auto.
  - injection E as <- <-. simpl. destruct n as [|m]; [contradiction|]. exists m. auto.
Qed.
Section News.
  Context (cfg : config) (c : nat).
  Notation ok := (news O).
  Lemma nw_publish t m k : ok k -> ok (publish t m k).
  Proof.
    intros H. assert (Hr : ok (route t m k)) by (simpl; intros ps; induction ps; simpl; auto).
    unfold publish. destruct (mg_retain m); [destruct (mg_payload m) as [[|]|]|]; simpl; auto.
  Qed.
  Lemma nw_end i : ok (end_code c i).
  Proof. simpl. intros s _. destruct (se_will s); [|simpl; auto]. apply nw_publish. simpl. auto. Qed.
  Lemma nw_sub i fs : forall k, (forall rs, ok (k rs)) -> ok (subscribe_all i fs k).
  Proof. induction fs as [|[f o] fs IH]; intros k H; simpl; [apply H|]. destruct (validate_subscribe_filter f); [auto|]. simpl. auto. Qed.
  Lemma nw_simple i h after : (forall k, ok k -> ok (after k)) -> ok (simple_code c i h after).
  Proof.
    intros Ha. simpl. intros s _. destruct (h s) as [[[x|]| |] t]; cbn [fst snd] in *; [apply Ha; simpl; auto|apply Ha; simpl; auto|apply nw_end|simpl; auto].
  Qed.
  Lemma nw_packet i k : ok (packet_code cfg c i k).
  Proof.
    destruct k as [k|k|p|a|a|a|a|p|k|p|k| | |d|a]; cbn [packet_code]; try apply nw_end;
      try (apply nw_simple; intros k' H; simpl; auto; fail).
    - unfold publish_code. destruct (validate_publish_topic _); [apply nw_end|].
      destruct (pb_qos p); [|destruct (pb_packet_id p)|destruct (pb_packet_id p)|]; try (apply nw_publish; simpl; auto using nw_end; fail);
        try (apply nw_publish, nw_end). intros s _. cbn [snd]. apply nw_publish. simpl. auto.
    - intros s _. cbn [snd]. apply nw_sub. intros rs. simpl. auto.
    - intros s _. destruct (unsubscribe_loop (us_payload p) (se_subs s)). simpl. auto.
    - simpl. auto.
    - intros s _ s1 _ r. apply nw_end.
  Qed.
  Lemma nw_emits os k : ok k -> ok (emits os k).
  Proof. induction os; simpl; auto. Qed.
  Lemma nw_restore i subs wl infl : ok (restore_code c i subs wl infl).
  Proof.
    unfold restore_code. cbv zeta. set (rest := emits _ _). assert (Hr : ok rest) by (apply nw_emits; simpl; auto).
    set (wills := match wl with Some x => _ | None => _ end). assert (Hw : ok wills) by (unfold wills; destruct wl; [intros s n|]; exact Hr).
    destruct subs as [|f fs]; [exact Hw|]. change (ok (restore_all i (f :: fs) (Conc.Release (LSession i) wills))).
    induction (f :: fs); simpl; [exact Hw|]. intros _ _ _ _. exact IHl.
  Qed.
  Lemma nw_begin i u a r subs wl infl : ok (begin_code c i u a r subs wl infl).
  Proof.
    intros s n. destruct (begin u r s) as [ack t]. cbn [fst snd] in *. destruct a; [|simpl; auto]. simpl. intros s1 _ _ s2 _. destruct (se_will s2); simpl; [intros _|]; apply nw_restore.
  Qed.
End News.
Lemma news_more k : forall n, news n k -> news (S n) k.
Proof.
  induction k using code_induction; intros n; cbn [news]; eauto.
  destruct n as [|n]; [contradiction|]. intros Hn i. apply H, Hn.
Qed.
Lemma nw_connect cfg c k u a : authenticated cfg k = true -> news 1 (connect_code cfg c k u a).
Proof.
  intros E. unfold connect_code. rewrite E. simpl negb. cbv iota zeta.
  assert (Hg : forall r subs wl infl, news 1 (enter_code k (fun i => begin_code c i u a r subs wl infl))).
  { intros. unfold enter_code. simpl. intros [i|]; [intros s n; apply news_more|intros i]; apply nw_begin. }
  match goal with |- news ?n (Acquire _ ?z) => change (news n z) end.
  destruct (cf_clean_start _); [intros _ _; apply Hg|]. intros [i|]; [apply Hg|]. intros r. destruct r as [| [st|] | | | | |]; try apply Hg. intros rw ri. apply Hg.
Qed.
Lemma nw_handler cfg sv e : news O (handler cfg sv e) \/
  exists c k u a, e = EFirst c (Some (Connect k)) u a /\ authenticated cfg k = true /\ news 1 (handler cfg sv e).
Proof.
  destruct e as [d [[p| | | | | | | | | | | | | |]|] u a|d k|d f|d|d|]; destruct sv as [i|]; try (left; exact I); try (left; simpl; auto; fail).
  - destruct (authenticated cfg p) eqn:E; [right; exists d, p, u, a; split; [reflexivity|]; split; [exact E|]; apply nw_connect, E|].
    left. simpl. unfold connect_code. rewrite E. simpl. auto.
  - left. apply nw_packet.
  - left. intros s n. destruct (process_outgoing f s _) as [[[p| |] t]|] eqn:E; try (simpl; auto; fail).
    cbn [snd]. destruct (pb_packet_id p); [destruct (pb_qos p)|]; simpl; auto.
  - left. apply nw_end.
Qed.

Definition made (tr : list item) : list nat := flat_map (fun i => match i with IStep c (ONew _ _ _) => [c] | _ => [] end) tr.
Definition times (c : nat) (l : list nat) : nat := count_occ Nat.eq_dec l c.
Lemma times_app c l l' : times c (l ++ l') = (times c l + times c l')%nat.
Proof. apply count_occ_app. Qed.
Lemma times_length : forall l l', (forall c, times c l <= times c l')%nat -> (length l <= length l')%nat.
Proof.
  induction l as [|c l IH]; intros l' H; [apply Nat.le_0_l|].
  assert (Hin : In c l') by (apply (count_occ_In Nat.eq_dec); specialize (H c); unfold times in H; simpl in H; destruct (Nat.eq_dec c c); [lia|congruence]).
  apply in_split in Hin. destruct Hin as (a & b & ->). rewrite app_length. simpl. rewrite Nat.add_succ_r, <- app_length. apply le_n_S, IH.
  intros d. specialize (H d). rewrite times_app in *. unfold times in *. simpl in H. destruct (Nat.eq_dec c d); lia.
Qed.
Section Count.
  Context (cfg : config) (ok : connect_packet -> bool).
  Hypothesis ok_auth : forall k, authenticated cfg k = true -> ok k = true.
  Definition fits (tr : list item) (x : conf) : Prop :=
    length (w_heap (cn_world x)) = length (made tr) /\
    forall c, (times c (made tr) <= times c (connects ok tr))%nat /\
      forall k, aget Nat.eqb c (cn_tasks x) = Some k -> news O k \/ (news 1 k /\ (times c (made tr) < times c (connects ok tr))%nat).
  Lemma made_app a b : made (a ++ b) = made a ++ made b.
  Proof. apply flat_map_app. Qed.
  Lemma connects_app a b : connects ok (a ++ b) = connects ok a ++ connects ok b.
  Proof. apply flat_map_app. Qed.
  Lemma fits_step tr x m x1 i : fits tr x -> mstep cfg x m = Some (x1, i) -> fits (tr ++ [i]) x1.
  Proof.
    intros [Hh Hf] Hm. apply mstep_inv in Hm. unfold fits. rewrite made_app, connects_app, app_length.
    destruct Hm as [(e & -> & -> & He & Ha & ->)|[(c & -> & -> & Ha & ->)|(c & k & o & k1 & -> & -> & Ha & Hn & Hy & ->)]]; cbn [cn_world cn_tasks].
    - split; [simpl; lia|]. intros c. destruct (Hf c) as [H1 H2]. rewrite !times_app. change (times c (made [IStart e])) with O. split; [lia|].
      intros k Hk. rewrite (aget_aput Nat.eqb Nat.eqb_eq) in Hk. destruct (Nat.eqb c (event_conn e)) eqn:Ec.
      + injection Hk as <-. apply Nat.eqb_eq in Ec. destruct (nw_handler cfg (aget Nat.eqb (event_conn e) (w_conns (cn_world x))) e) as [H|(d & p & u & a & -> & Hp & H)]; [auto|].
        right. split; [exact H|]. simpl in Ec. subst d. assert (E1 : times c (connects ok [IStart (EFirst c (Some (Connect p)) u a)]) = 1%nat).
        { unfold connects. simpl. rewrite (ok_auth _ Hp). unfold times. simpl. destruct (Nat.eq_dec c c); congruence. }
        lia.
      + destruct (H2 _ Hk) as [H|[H H3]]; [auto|right; split; [exact H|lia]].
    - split; [simpl; lia|]. intros d. destruct (Hf d) as [H1 H2]. rewrite !times_app. change (times d (made [IEnd c])) with O. change (times d (connects ok [IEnd c])) with O.
      split; [lia|]. intros k Hk. rewrite (aget_adel Nat.eqb Nat.eqb_eq) in Hk. destruct (Nat.eqb d c); [discriminate|]. destruct (H2 _ Hk) as [H|[H H3]]; [auto|right; split; [exact H|lia]].
    - assert (Hc : connects ok [IStep c o] = []) by reflexivity. rewrite Hc, app_nil_r. pose proof (Hf c) as [Hc1 Hc2]. specialize (Hc2 _ Ha).
      assert (Hold : is_new o = false -> made [IStep c o] = [] /\ length (w_heap (apply c o (cn_world x))) = length (w_heap (cn_world x))).
      { destruct o; try discriminate; intros _; split; try reflexivity. cbn [apply]. unfold put_session, set_heap. cbn [w_heap]. apply list_set_length. }
      destruct (is_new o) eqn:Eo.
      + destruct o as [ | | | | | | | | |id j s| | | | ]; try discriminate. cbn [apply]. simpl. rewrite app_length. simpl. split; [lia|].
        assert (Hlt : (times c (made tr) < times c (connects ok tr))%nat /\ news O k1).
        { destruct Hc2 as [H|[H H3]]; apply (news_next _ _ _ _ _ H) in Hn; destruct Hn as (n & En & Hn); [discriminate|]. injection En as <-. auto. }
        intros d. rewrite times_app. assert (E1 : times d [c] = if Nat.eq_dec c d then 1%nat else O) by reflexivity. rewrite E1. destruct (Nat.eq_dec c d) as [->|Hd].
        * split; [lia|]. intros k2. rewrite (aget_aput Nat.eqb Nat.eqb_eq), Nat.eqb_refl. intros E. injection E as <-. left. apply Hlt.
        * rewrite Nat.add_0_r. destruct (Hf d) as [H1 H2]. split; [exact H1|]. intros k2. rewrite (aget_aput Nat.eqb Nat.eqb_eq).
          destruct (Nat.eqb d c) eqn:E; [apply Nat.eqb_eq in E; congruence|]. apply H2.
      + destruct (Hold eq_refl) as [-> ->]. rewrite app_nil_r. simpl. split; [lia|]. intros d. destruct (Hf d) as [H1 H2]. split; [exact H1|]. intros k2.
        rewrite (aget_aput Nat.eqb Nat.eqb_eq). destruct (Nat.eqb d c) eqn:E; [|apply H2]. apply Nat.eqb_eq in E. subst d. intros E2. injection E2 as <-.
        destruct Hc2 as [H|[H H3]]; pose proof (news_next _ _ _ _ _ H Hn) as Hx; rewrite Eo in Hx; auto.
  Qed.
  Lemma runs_fits x tr y : mruns cfg x tr y -> forall pre, fits pre x -> fits (pre ++ tr) y.
  Proof.
    induction 1 as [|x m x1 i tr x2 Hm Hr IH]; intros pre H; [rewrite app_nil_r; exact H|].
    change (i :: tr) with ([i] ++ tr). rewrite app_assoc. apply IH. eapply fits_step; eauto.
  Qed.
  Lemma fits_new st : fits [] (conf_on st).
  Proof. split; [reflexivity|]. intros c. split; [apply Nat.le_0_l|]. discriminate. Qed.
  Lemma sessions_bounded st tr x : mruns cfg (conf_on st) tr x -> (length (w_heap (cn_world x)) <= length (connects ok tr))%nat.
  Proof.
    intros H. destruct (runs_fits _ _ _ H [] (fits_new st)) as [H1 H2]. simpl in *. rewrite H1. apply times_length. intros c. apply H2.
  Qed.
End Count.

(** The table of sessions has no more entries than there are sessions. *)
Lemma adel_length {A} id (l : list (bytes * A)) : (length (adel bytes_eqb id l) <= length l)%nat.
Proof. unfold adel. induction l as [|[k v] l IH]; simpl; [lia|]. destruct (bytes_eqb id k); simpl; lia. Qed.
Lemma aput_length {A} id (v : A) (l : list (bytes * A)) : (length (aput bytes_eqb id v l) <= S (length l))%nat.
Proof. induction l as [|[k w] l IH]; simpl; [lia|]. destruct (bytes_eqb id k); simpl; lia. Qed.
Lemma manager_bounded cfg x tr y : mruns cfg x tr y -> (length (w_manager (cn_world x)) <= length (w_heap (cn_world x)))%nat ->
  (length (w_manager (cn_world y)) <= length (w_heap (cn_world y)))%nat.
Proof.
  induction 1 as [x|x m x1 i tr x2 Hm Hr IH]; intros H; [exact H|]. apply IH. apply mstep_inv in Hm.
  destruct Hm as [(e & -> & -> & He & Ha & ->)|[(c & -> & -> & Ha & ->)|(c & k & o & k1 & -> & -> & Ha & Hn & Hy & ->)]]; cbn [cn_world]; auto.
  destruct o; cbn [apply]; auto.
  - unfold put_session, set_heap. cbn [w_heap w_manager]. rewrite list_set_length. exact H.
  - unfold set_manager. cbn [w_heap w_manager]. eapply Nat.le_trans; [apply adel_length|exact H].
  - unfold set_manager, set_heap. cbn [w_heap w_manager]. rewrite app_length. simpl. eapply Nat.le_trans; [apply aput_length|lia].
Qed.
