(** Association lists, standing for Rust's [HashMap], [StreamMap] and SQL tables
    with a primary key. The first binding of a key counts; [aput] replaces in
    place or appends, so a map built with [aput] binds each key once. The order
    of the list stands for the (arbitrary) iteration order of the Rust map. *)
From Verif Require Import Base.

Section Maps.
  Context {K V : Type}.
  Variable eqb : K -> K -> bool.

  Fixpoint aget (k : K) (m : list (K * V)) : option V :=
    match m with
    | [] => None
    | (k', v) :: m => if eqb k k' then Some v else aget k m
    end.

  Fixpoint aput (k : K) (v : V) (m : list (K * V)) : list (K * V) :=
    match m with
    | [] => [(k, v)]
    | (k', v') :: m => if eqb k k' then (k', v) :: m else (k', v') :: aput k v m
    end.

  Definition adel (k : K) (m : list (K * V)) : list (K * V) :=
    filter (fun kv => negb (eqb k (fst kv))) m.

  Definition akeys (m : list (K * V)) : list K := map fst m.
  Definition avals (m : list (K * V)) : list V := map snd m.
End Maps.

Section Facts.
  Context {K V : Type}.
  Variable eqb : K -> K -> bool.
  Hypothesis eqb_spec : forall a b, eqb a b = true <-> a = b.

  Lemma aeqb_refl a : eqb a a = true.
  Proof. apply eqb_spec; reflexivity. Qed.
  Lemma aeqb_neq a b : a <> b -> eqb a b = false.
  Proof. intros H. destruct (eqb a b) eqn:E; auto. apply eqb_spec in E; contradiction. Qed.

  Lemma aget_aput k k' (v : V) m :
    aget eqb k (aput eqb k' v m) = if eqb k k' then Some v else aget eqb k m.
  Proof.
    induction m as [|[k1 v1] m IH]; simpl.
    - destruct (eqb k k') eqn:E; reflexivity.
    - destruct (eqb k' k1) eqn:E1; simpl.
      + apply eqb_spec in E1; subst k1. destruct (eqb k k'); reflexivity.
      + rewrite IH. destruct (eqb k k1) eqn:E2; auto.
        apply eqb_spec in E2; subst k1.
        destruct (eqb k k') eqn:E3; auto. apply eqb_spec in E3; subst k'.
        rewrite aeqb_refl in E1; discriminate.
  Qed.

  Lemma aget_adel k k' (m : list (K * V)) :
    aget eqb k (adel eqb k' m) = if eqb k k' then None else aget eqb k m.
  Proof.
    induction m as [|[k1 v1] m IH]; simpl.
    - destruct (eqb k k'); reflexivity.
    - destruct (eqb k' k1) eqn:E1; simpl.
      + apply eqb_spec in E1; subst k1. rewrite IH. destruct (eqb k k'); reflexivity.
      + rewrite IH. destruct (eqb k k1) eqn:E2; auto.
        apply eqb_spec in E2; subst k1.
        destruct (eqb k k') eqn:E3; auto. apply eqb_spec in E3; subst k'.
        rewrite aeqb_refl in E1; discriminate.
  Qed.

  Lemma aget_put_same k (v : V) m : aget eqb k (aput eqb k v m) = Some v.
  Proof. rewrite aget_aput, aeqb_refl; reflexivity. Qed.
  Lemma aget_put_other k k' (v : V) m : k <> k' -> aget eqb k (aput eqb k' v m) = aget eqb k m.
  Proof. intros H. rewrite aget_aput, aeqb_neq; auto. Qed.
  Lemma aget_del_same k (m : list (K * V)) : aget eqb k (adel eqb k m) = None.
  Proof. rewrite aget_adel, aeqb_refl; reflexivity. Qed.
  Lemma aget_del_other k k' (m : list (K * V)) : k <> k' -> aget eqb k (adel eqb k' m) = aget eqb k m.
  Proof. intros H. rewrite aget_adel, aeqb_neq; auto. Qed.

  Lemma aget_in k (v : V) m : aget eqb k m = Some v -> In (k, v) m.
  Proof.
    induction m as [|[k1 v1] m IH]; simpl; [discriminate|].
    destruct (eqb k k1) eqn:E; intros H.
    - apply eqb_spec in E; subst. injection H as <-. auto.
    - auto.
  Qed.

  Lemma aget_none k (m : list (K * V)) : aget eqb k m = None <-> ~ In k (akeys m).
  Proof.
    induction m as [|[k1 v1] m IH]; simpl; [tauto|].
    destruct (eqb k k1) eqn:E.
    - apply eqb_spec in E; subst. split; [discriminate | intros H; exfalso; apply H; auto].
    - rewrite IH. split; intros H; [intros [->|Hi]|]; auto.
      rewrite aeqb_refl in E; discriminate.
  Qed.

  Lemma aget_some_key k (m : list (K * V)) : In k (akeys m) <-> exists v, aget eqb k m = Some v.
  Proof.
    destruct (aget eqb k m) eqn:E.
    - split; [eauto|]. intros _. apply aget_in in E. apply (in_map fst) in E; exact E.
    - apply aget_none in E. split; [tauto | intros [v H]; discriminate].
  Qed.

  Lemma in_aget k (v : V) m : NoDup (akeys m) -> In (k, v) m -> aget eqb k m = Some v.
  Proof.
    induction m as [|[k1 v1] m IH]; simpl; [tauto|].
    intros Hnd [H|H]; inversion Hnd as [|? ? Hn Hnd']; subst.
    - injection H as -> ->. rewrite aeqb_refl; reflexivity.
    - destruct (eqb k k1) eqn:E; auto. apply eqb_spec in E; subst.
      exfalso; apply Hn. apply (in_map fst) in H; exact H.
  Qed.

  Lemma akeys_aput k (v : V) m x : In x (akeys (aput eqb k v m)) <-> x = k \/ In x (akeys m).
  Proof.
    induction m as [|[k1 v1] m IH]; simpl; [intuition|].
    destruct (eqb k k1) eqn:E; simpl.
    - apply eqb_spec in E; subst. intuition.
    - rewrite IH. intuition.
  Qed.

  Lemma akeys_aput_old k (v : V) m : In k (akeys m) -> akeys (aput eqb k v m) = akeys m.
  Proof.
    induction m as [|[k1 v1] m IH]; simpl; [tauto|].
    destruct (eqb k k1) eqn:E; simpl; auto. intros [->|H].
    - rewrite aeqb_refl in E; discriminate.
    - f_equal; auto.
  Qed.

  Lemma akeys_aput_new k (v : V) m : ~ In k (akeys m) -> aput eqb k v m = m ++ [(k, v)].
  Proof.
    induction m as [|[k1 v1] m IH]; simpl; auto.
    intros H. rewrite aeqb_neq by (intros ->; tauto). f_equal. apply IH. tauto.
  Qed.

  Lemma akeys_adel k (m : list (K * V)) x : In x (akeys (adel eqb k m)) <-> x <> k /\ In x (akeys m).
  Proof.
    induction m as [|[k1 v1] m IH]; simpl; [tauto|].
    destruct (eqb k k1) eqn:E; simpl.
    - apply eqb_spec in E; subst. rewrite IH. intuition. subst; tauto.
    - rewrite IH. assert (k <> k1) by (intros ->; rewrite aeqb_refl in E; discriminate).
      intuition congruence.
  Qed.

  Lemma nodup_aput k (v : V) m : NoDup (akeys m) -> NoDup (akeys (aput eqb k v m)).
  Proof.
    induction m as [|[k1 v1] m IH]; simpl; intros H; [constructor; auto; constructor|].
    inversion H as [|? ? Hn Hnd]; subst.
    destruct (eqb k k1) eqn:E; simpl; constructor; auto.
    rewrite akeys_aput. intros [->|Hi]; auto. rewrite aeqb_refl in E; discriminate.
  Qed.

  Lemma nodup_adel k (m : list (K * V)) : NoDup (akeys m) -> NoDup (akeys (adel eqb k m)).
  Proof.
    induction m as [|[k1 v1] m IH]; simpl; intros H; auto.
    inversion H as [|? ? Hn Hnd]; subst.
    destruct (eqb k k1); simpl; auto. constructor; auto.
    rewrite akeys_adel. tauto.
  Qed.

  Lemma adel_none k (m : list (K * V)) : aget eqb k m = None -> adel eqb k m = m.
  Proof.
    induction m as [|[k1 v1] m IH]; simpl; auto.
    destruct (eqb k k1); simpl; [discriminate|]. intros H. f_equal; auto.
  Qed.

  Lemma in_adel k k1 (v : V) m : In (k1, v) (adel eqb k m) <-> In (k1, v) m /\ k1 <> k.
  Proof.
    unfold adel. rewrite filter_In. simpl.
    destruct (eqb k k1) eqn:E.
    - apply eqb_spec in E; subst. intuition discriminate.
    - assert (k <> k1) by (intros ->; rewrite aeqb_refl in E; discriminate). intuition congruence.
  Qed.

  Lemma in_aput k k1 (v v1 : V) m : NoDup (akeys m) ->
    (In (k1, v1) (aput eqb k v m) <-> (k1 = k /\ v1 = v) \/ (k1 <> k /\ In (k1, v1) m)).
  Proof.
    intros Hnd. split.
    - intros H. apply (in_aget k1 v1) in H; [|apply nodup_aput; auto].
      rewrite aget_aput in H. destruct (eqb k1 k) eqn:E.
      + apply eqb_spec in E; subst. injection H as ->. auto.
      + right. split; [intros ->; rewrite aeqb_refl in E; discriminate | apply aget_in; auto].
    - intros [[-> ->]|[H1 H2]]; apply aget_in.
      + apply aget_put_same.
      + rewrite aget_put_other by auto. apply in_aget; auto.
  Qed.
End Facts.
