(** Facts about the topic tree: the stack loop terminates and sends to exactly the
    existing nodes whose path matches the topic, once each. *)
From Coq Require Import FinFun.
From Verif Require Import Base Codec Tac Maps CodecFacts SpecTopic Topic TopicFacts TopicTree.

Section TreeFacts.
  Context {T : Type}.
  Implicit Types (n c : node T) (p q ls : list bytes) (v : T).

  Lemma beqb_spec (a b : bytes) : bytes_eqb a b = true <-> a = b.
  Proof. split; [apply bytes_eqb_eq | intros ->; apply bytes_eqb_refl]. Qed.

  (** Depth-first formulation of the loop. *)
  Fixpoint dests ls (p : list bytes) n : list (list bytes) :=
    match ls with
    | [] => p :: (if is_some (child str_hash n) then [p ++ [str_hash]] else [])
    | l :: ls =>
        (if is_some (child str_hash n) then [p ++ [str_hash]] else [])
        ++ (match child str_plus n with Some c => dests ls (p ++ [str_plus]) c | None => [] end)
        ++ (match child l n with Some c => dests ls (p ++ [l]) c | None => [] end)
    end.

  Definition entry_visits ls (e : list bytes * node T * nat) : nat :=
    let '(_, n, d) := e in visits (skipn d ls) n.
  Definition entry_dests ls (e : list bytes * node T * nat) : list (list bytes) :=
    let '(p, n, d) := e in dests (skipn d ls) p n.
  Definition stack_visits ls (st : list (list bytes * node T * nat)) : nat :=
    fold_right (fun e a => (entry_visits ls e + a)%nat) O st.

  Lemma skipn_nth {A} (l : list A) d x : nth_error l d = Some x -> skipn d l = x :: skipn (S d) l.
  Proof.
    revert d. induction l as [|y l IH]; intros [|d] H; simpl in *; try discriminate.
    - injection H as ->. reflexivity.
    - apply IH in H. exact H.
  Qed.

  Lemma pub_loop_ok fuel ls : forall st out,
    Forall (fun e => (snd e <= length ls)%nat) st ->
    (stack_visits ls st <= fuel)%nat ->
    pub_loop fuel ls st out = Some (out ++ flat_map (entry_dests ls) st).
  Proof.
    induction fuel as [|fuel IH]; intros [|[[p n] d] st] out Hd Hf.
    - simpl. rewrite app_nil_r. reflexivity.
    - exfalso. simpl in Hf. destruct (skipn d ls); simpl in Hf; lia.
    - simpl. rewrite app_nil_r. reflexivity.
    - inversion Hd as [|? ? Hd1 Hd2]; subst. simpl in Hd1.
      cbn [pub_loop]. destruct (Nat.eqb_spec d (length ls)) as [E|E].
      + simpl in Hf. subst d. rewrite skipn_all in Hf. simpl in Hf.
        rewrite IH by (auto; lia). simpl. rewrite skipn_all. simpl.
        destruct (is_some (child str_hash n)); rewrite <- ?app_assoc; reflexivity.
      + destruct (nth_error ls d) as [l|] eqn:En; [|apply nth_error_None in En; lia].
        pose proof (skipn_nth _ _ _ En) as Es.
        simpl in Hf. rewrite Es in Hf. cbn [visits] in Hf.
        set (st1 := match child l n with Some c => (p ++ [l], c, S d) :: st | None => st end).
        set (st2 := match child str_plus n with Some c => (p ++ [str_plus], c, S d) :: st1 | None => st1 end).
        assert (Hst : Forall (fun e => (snd e <= length ls)%nat) st2 /\ (stack_visits ls st2 <= fuel)%nat
                      /\ flat_map (entry_dests ls) st2
                         = (match child str_plus n with Some c => dests (skipn (S d) ls) (p ++ [str_plus]) c | None => [] end)
                           ++ (match child l n with Some c => dests (skipn (S d) ls) (p ++ [l]) c | None => [] end)
                           ++ flat_map (entry_dests ls) st).
        { unfold st2, st1, stack_visits. destruct (child str_plus n), (child l n);
            (split; [|split]);
            try (repeat (constructor; [simpl; lia|])); auto;
            cbn [fold_right entry_visits flat_map entry_dests]; fold (stack_visits ls st); try lia;
            rewrite <- ?app_assoc; reflexivity. }
        destruct Hst as (H1 & H2 & H3). rewrite IH by auto. rewrite H3.
        cbn [flat_map entry_dests]. rewrite Es. cbn [dests].
        destruct (is_some (child str_hash n)); rewrite <- ?app_assoc; reflexivity.
  Qed.

  Lemma tree_publish_eq t v n :
    tree_publish t v n = Some (fold_left (fun n p => send_at p v n) (dests (levels t) [] n) n).
  Proof.
    unfold tree_publish. rewrite pub_loop_ok; simpl.
    - rewrite app_nil_r. reflexivity.
    - repeat constructor. simpl; lia.
    - lia.
  Qed.

  (** ** Where messages go *)

  Lemma dests_prefix ls : forall p n, dests ls p n = map (app p) (dests ls [] n).
  Proof.
    induction ls as [|l ls IH]; intros p n; cbn [dests].
    - destruct (is_some (child str_hash n)); simpl; rewrite app_nil_r; reflexivity.
    - rewrite !map_app. f_equal; [|f_equal].
      + destruct (is_some (child str_hash n)); reflexivity.
      + destruct (child str_plus n); [|reflexivity].
        rewrite (IH (p ++ _)), (IH ([] ++ _)). rewrite map_map. apply map_ext.
        intros a. rewrite <- app_assoc. reflexivity.
      + destruct (child l n); [|reflexivity].
        rewrite (IH (p ++ _)), (IH ([] ++ _)). rewrite map_map. apply map_ext.
        intros a. rewrite <- app_assoc. reflexivity.
  Qed.

  Lemma is_some_iff {A} (o : option A) : is_some o = true <-> o <> None.
  Proof. destruct o; simpl; intuition congruence. Qed.

  Lemma in_dests ls : Forall plain ls -> forall n q,
    In q (dests ls [] n) <-> node_at q n <> None /\ level_match q ls.
  Proof.
    induction ls as [|l ls IH]; intros Hp n q.
    - cbn [dests]. simpl app. split.
      + intros [<-|H].
        * split; [discriminate | constructor].
        * destruct (is_some (child str_hash n)) eqn:E; [|contradiction].
          destruct H as [<-|[]]. simpl. apply is_some_iff in E.
          destruct (child str_hash n); [|contradiction]. split; [discriminate | constructor].
      + intros [H1 H2]. inversion H2; subst; [left; reflexivity|]. right.
        simpl in H1. change [35] with str_hash in *. destruct (child str_hash n); [|contradiction].
        simpl. left. reflexivity.
    - inversion Hp as [|? ? [Hl1 Hl2] Hp']; subst. specialize (IH Hp').
      cbn [dests]. rewrite !in_app_iff. simpl app.
      assert (Hsub : forall k q, In q (match child k n with Some c => dests ls [k] c | None => [] end)
                <-> exists q', q = k :: q' /\ node_at q n <> None /\ level_match q' ls).
      { intros k q0. destruct (child k n) as [c|] eqn:Ec.
        - rewrite dests_prefix, in_map_iff. split.
          + intros (q' & <- & Hq). exists q'. simpl. rewrite Ec.
            split; [reflexivity|]. apply IH. exact Hq.
          + intros (q' & -> & Hq & Hm). exists q'. split; [reflexivity|].
            simpl in Hq. rewrite Ec in Hq. apply IH. auto.
        - split; [contradiction|]. intros (q' & -> & Hq & _). simpl in Hq. rewrite Ec in Hq. contradiction. }
      rewrite !Hsub. split.
      + intros [H|[(q' & -> & H1 & H2)|(q' & -> & H1 & H2)]].
        * destruct (is_some (child str_hash n)) eqn:E; [|contradiction].
          destruct H as [<-|[]]. simpl. apply is_some_iff in E.
          destruct (child str_hash n); [|contradiction]. split; [discriminate | constructor].
        * split; auto. apply lm_plus. exact H2.
        * split; auto. apply lm_same. exact H2.
      + intros [H1 H2]. inversion H2; subst.
        * left. simpl in H1. change [35] with str_hash in *.
          destruct (child str_hash n); [|contradiction]. left; reflexivity.
        * right; left. exists f. auto.
        * right; right. exists f. auto.
  Qed.

  Lemma nodup_dests ls : Forall plain ls -> forall n, NoDup (dests ls [] n).
  Proof.
    induction ls as [|l ls IH]; intros Hp n; cbn [dests].
    - destruct (is_some (child str_hash n)); simpl; repeat constructor; simpl; intuition discriminate.
    - inversion Hp as [|? ? [Hl1 Hl2] Hp']; subst. specialize (IH Hp').
      assert (Hmap : forall k c, NoDup (dests ls ([] ++ [k]) c)).
      { intros k c. rewrite dests_prefix.
        apply FinFun.Injective_map_NoDup; [intros a b H; simpl in H; congruence | apply IH]. }
      assert (Hhd : forall k c q, In q (dests ls ([] ++ [k]) c) -> exists q', q = k :: q').
      { intros k c q. rewrite dests_prefix, in_map_iff. intros (q' & <- & _). simpl; eauto. }
      assert (Hpl : NoDup ((match child str_plus n with Some c => dests ls ([] ++ [str_plus]) c | None => [] end)
                  ++ (match child l n with Some c => dests ls ([] ++ [l]) c | None => [] end))).
      { destruct (child str_plus n) as [c1|]; [|destruct (child l n); [apply Hmap | constructor]].
        destruct (child l n) as [c2|]; [|rewrite app_nil_r; apply Hmap].
        assert (Happ : forall (a b : list (list bytes)), NoDup a -> NoDup b ->
                   (forall x, In x a -> ~ In x b) -> NoDup (a ++ b)).
        { clear. induction a as [|x a IHa]; intros b Ha Hb Hd; simpl; auto.
          inversion Ha; subst. constructor.
          - rewrite in_app_iff. intros [H|H]; [contradiction|]. apply (Hd x); simpl; auto.
          - apply IHa; auto. intros y Hy. apply Hd. simpl; auto. }
        apply Happ; auto. intros q H1 H2.
        destruct (Hhd _ _ _ H1) as [q1 ->]. destruct (Hhd _ _ _ H2) as [q2 E]. congruence. }
      destruct (is_some (child str_hash n)); [|exact Hpl]. simpl app at 1. constructor; [|exact Hpl].
      rewrite in_app_iff. intros [H|H].
      + destruct (child str_plus n); [|contradiction]. destruct (Hhd _ _ _ H) as [q' E]. discriminate.
      + destruct (child l n); [|contradiction]. destruct (Hhd _ _ _ H) as [q' E].
        injection E as E _. apply Hl2. symmetry; exact E.
  Qed.

  (** ** Effect on the logs *)

  Lemma node_at_send q : forall p v n, node_at q (send_at p v n) <> None <-> node_at q n <> None.
  Proof.
    induction q as [|k q IH]; intros p v n; simpl; [intuition discriminate|].
    destruct p as [|l p]; simpl.
    - reflexivity.
    - destruct (child l n) as [c|] eqn:Ec; [|reflexivity].
      unfold child at 1. simpl. rewrite aget_aput by apply beqb_spec.
      destruct (bytes_eqb k l) eqn:E.
      + apply bytes_eqb_eq in E; subst. rewrite Ec. apply IH.
      + reflexivity.
  Qed.

  Definition path_eq_dec (p q : list bytes) : {p = q} + {p <> q} :=
    list_eq_dec (list_eq_dec N.eq_dec) p q.
  Arguments path_eq_dec : simpl never.

  Lemma log_at_send q : forall p v n, node_at p n <> None ->
    log_at q (send_at p v n) = if path_eq_dec q p then log_at q n ++ [v] else log_at q n.
  Proof.
    induction q as [|k q IH]; intros p v n Hp.
    - destruct p as [|l p]; simpl.
      + reflexivity.
      + simpl in Hp. destruct (child l n); [|contradiction].
        destruct (path_eq_dec [] (l :: p)); [discriminate|]. reflexivity.
    - destruct p as [|l p].
      + simpl. destruct (path_eq_dec (k :: q) []); [discriminate|]. reflexivity.
      + simpl in Hp. simpl send_at. destruct (child l n) as [c|] eqn:Ec; [|contradiction].
        unfold log_at in *. simpl node_at. unfold child at 1. simpl. rewrite aget_aput by apply beqb_spec.
        destruct (bytes_eqb k l) eqn:E.
        * apply bytes_eqb_eq in E; subst. rewrite Ec. rewrite (IH p v c Hp).
          destruct (path_eq_dec q p) as [Hq|Hne], (path_eq_dec (l :: q) (l :: p)) as [H|H];
            simpl; rewrite ?Ec; try reflexivity; congruence.
        * destruct (path_eq_dec (k :: q) (l :: p)) as [H|H]; [|reflexivity].
          injection H as -> ->. rewrite bytes_eqb_refl in E. discriminate.
  Qed.

  Lemma log_at_sends ps : forall v n q, Forall (fun p => node_at p n <> None) ps ->
    log_at q (fold_left (fun n p => send_at p v n) ps n)
    = log_at q n ++ repeat v (count_occ path_eq_dec ps q).
  Proof.
    induction ps as [|p ps IH]; intros v n q H; simpl.
    - rewrite app_nil_r; reflexivity.
    - inversion H as [|? ? H1 H2]; subst. rewrite IH.
      + rewrite log_at_send by auto. destruct (path_eq_dec q p) as [->|Hn].
        * destruct (path_eq_dec p p); [|congruence]. simpl. rewrite <- app_assoc. reflexivity.
        * destruct (path_eq_dec p q); [congruence|]. reflexivity.
      + revert H2. apply Forall_impl. intros a Ha. apply node_at_send. exact Ha.
  Qed.

  Lemma node_at_sends ps : forall v n q,
    node_at q (fold_left (fun n p => send_at p v n) ps n) <> None <-> node_at q n <> None.
  Proof.
    induction ps as [|p ps IH]; intros v n q; simpl; [tauto|]. rewrite IH. apply node_at_send.
  Qed.

  Lemma level_match_dec f t : {level_match f t} + {~ level_match f t}.
  Proof.
    revert t. induction f as [|k f IH]; intros t.
    - destruct t; [left; constructor | right; intros H; inversion H].
    - destruct (path_eq_dec (k :: f) [[35]]) as [->|Hh]; [left; constructor|].
      destruct t as [|l t].
      + right. intros H. inversion H; subst. apply Hh. reflexivity.
      + destruct (IH t) as [Hm|Hm].
        * destruct (list_eq_dec N.eq_dec k [43]) as [->|H1]; [left; apply lm_plus; auto|].
          destruct (list_eq_dec N.eq_dec k l) as [->|H2]; [left; apply lm_same; auto|].
          right. intros H. inversion H; subst; auto.
        * right. intros H. inversion H; subst; auto.
  Defined.
  Lemma matches_dec f t : {matches f t} + {~ matches f t}.
  Proof.
    destruct (level_match_dec (levels f) (levels t)) as [H|H]; [left | right];
      rewrite matches_iff; exact H.
  Defined.

  (** One publish on a topic without wildcard levels. *)
  Lemma publish_log t v n n' f :
    Forall plain (levels t) -> tree_publish t v n = Some n' -> node_at (levels f) n <> None ->
    log_at (levels f) n' = log_at (levels f) n ++ (if matches_dec f t then [v] else []).
  Proof.
    intros Hp H Hf. rewrite tree_publish_eq in H. injection H as <-.
    rewrite log_at_sends.
    - f_equal. destruct (matches_dec f t) as [Hm|Hm]; rewrite matches_iff in Hm.
      + assert (Hin : In (levels f) (dests (levels t) [] n)) by (apply in_dests; auto).
        pose proof (proj1 (NoDup_count_occ' path_eq_dec _) (nodup_dests _ Hp n) _ Hin) as ->. reflexivity.
      + rewrite (proj1 (count_occ_not_In path_eq_dec _ _)); [reflexivity|].
        intros Hin. apply in_dests in Hin; auto. apply Hm, Hin.
    - apply Forall_forall. intros p Hin. apply in_dests in Hin; auto. apply Hin.
  Qed.

  (** ** Subscribing *)

  Lemma node_at_subscribe q : forall ls n,
    node_at q (tree_subscribe ls n) <> None <-> node_at q n <> None \/ exists r, ls = q ++ r.
  Proof.
    induction q as [|k q IH]; intros ls n.
    - simpl. intuition discriminate.
    - destruct ls as [|l ls]; simpl.
      + split; [auto|]. intros [H|[r H]]; [exact H|discriminate].
      + unfold child at 1. simpl. rewrite aget_aput by apply beqb_spec.
        destruct (bytes_eqb k l) eqn:E.
        * apply bytes_eqb_eq in E; subst. rewrite IH. destruct (child l n) as [c|].
          -- split; intros [H|[r H]]; auto; right; exists r; [subst|injection H]; auto.
          -- split.
             ++ intros [H|[r H]]; [|right; exists r; subst; auto].
                destruct q; [|simpl in H; contradiction]. right. exists ls. reflexivity.
             ++ intros [H|[r H]]; [contradiction|]. right. exists r. injection H; auto.
        * split; [auto|]. intros [H|[r H]]; [exact H|]. injection H as -> H.
          rewrite bytes_eqb_refl in E. discriminate.
  Qed.

  Lemma log_at_new q : @log_at T q new_node = [].
  Proof. destruct q; reflexivity. Qed.

  Lemma log_at_subscribe q : forall ls n, log_at q (tree_subscribe ls n) = log_at q n.
  Proof.
    induction q as [|k q IH]; intros ls n.
    - destruct ls; reflexivity.
    - destruct ls as [|l ls]; [reflexivity|].
      unfold log_at in *. simpl. unfold child at 1. simpl. rewrite aget_aput by apply beqb_spec.
      destruct (bytes_eqb k l) eqn:E; [|reflexivity].
      apply bytes_eqb_eq in E; subst. rewrite IH. destruct (child l n); [reflexivity|].
      exact (log_at_new q).
  Qed.

  (** ** Histories *)

  Definition pubs (os : list (tree_op T)) : list (bytes * T) :=
    flat_map (fun o => match o with TSub _ => [] | TPub t v => [(t, v)] end) os.

  Lemma tree_run_total os : forall n, exists n', tree_run os n = Some n'.
  Proof.
    induction os as [|o os IH]; intros n; simpl; [eauto|].
    destruct o as [f|t v]; simpl; [apply IH|]. rewrite tree_publish_eq. apply IH.
  Qed.

  Lemma tree_run_app os1 os2 n :
    tree_run (os1 ++ os2) n = match tree_run os1 n with Some m => tree_run os2 m | None => None end.
  Proof.
    revert n. induction os1 as [|o os1 IH]; intros n; simpl; auto. destruct (tree_step n o); auto.
  Qed.

  Lemma tree_run_node q os : forall n n', tree_run os n = Some n' ->
    node_at q n <> None -> node_at q n' <> None.
  Proof.
    induction os as [|o os IH]; intros n n' H Hq; simpl in H; [congruence|].
    destruct o as [f|t v]; simpl in H.
    - apply (IH _ _ H). apply node_at_subscribe. auto.
    - rewrite tree_publish_eq in H. apply (IH _ _ H). apply node_at_sends. exact Hq.
  Qed.

  Lemma tree_run_log f os : forall n n',
    Forall (fun tv => Forall plain (levels (fst tv))) (pubs os) ->
    tree_run os n = Some n' -> node_at (levels f) n <> None ->
    exists vs, matching_values f (pubs os) vs /\ log_at (levels f) n' = log_at (levels f) n ++ vs.
  Proof.
    induction os as [|o os IH]; intros n n' Hp H Hf; simpl in H.
    - injection H as <-. exists []. split; [constructor | rewrite app_nil_r; reflexivity].
    - destruct o as [g|t v]; simpl in H.
      + destruct (IH _ _ Hp H) as (vs & Hm & E).
        * apply node_at_subscribe. auto.
        * exists vs. split; auto. rewrite E, log_at_subscribe. reflexivity.
      + inversion Hp as [|? ? Hp1 Hp2]; subst. simpl in Hp1.
        destruct (tree_publish t v n) as [m|] eqn:Em; [|discriminate].
        destruct (IH _ _ Hp2 H) as (vs & Hm & E).
        * rewrite tree_publish_eq in Em. injection Em as <-. apply node_at_sends. exact Hf.
        * rewrite (publish_log t v n m f Hp1 Em Hf) in E. simpl.
          destruct (matches_dec f t) as [Hd|Hd].
          -- exists (v :: vs). split; [constructor; auto|]. rewrite E, <- app_assoc. reflexivity.
          -- exists vs. split; [apply mv_skip; auto|]. rewrite E, app_nil_r. reflexivity.
  Qed.

  (** A subscription made after [os1] gets exactly the matching publications of [os2]. *)
  Lemma tree_history os1 f os2 n1 n2 :
    Forall (fun tv => Forall plain (levels (fst tv))) (pubs os2) ->
    tree_run (os1 ++ [TSub f]) new_node = Some n1 ->
    tree_run (os1 ++ TSub f :: os2) new_node = Some n2 ->
    exists vs, matching_values f (pubs os2) vs
      /\ log_at (levels f) n2 = log_at (levels f) n1 ++ vs.
  Proof.
    intros Hp H1 H2.
    assert (H3 : tree_run os2 n1 = Some n2).
    { change (TSub f :: os2) with ([TSub f] ++ os2) in H2.
      rewrite app_assoc, tree_run_app, H1 in H2. exact H2. }
    apply (tree_run_log f os2 n1 n2 Hp H3).
    rewrite tree_run_app in H1. destruct (tree_run os1 new_node) as [m|]; [|discriminate].
    simpl in H1. injection H1 as <-. apply node_at_subscribe. right. exists []. rewrite app_nil_r; reflexivity.
  Qed.
End TreeFacts.
