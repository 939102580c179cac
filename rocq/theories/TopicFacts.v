(** Facts about topic validation and level splitting. *)
From Verif Require Import Base Utf8 Codec Tac SpecCodec CodecFacts SpecTopic Topic.

(** ** ASCII characters in UTF-8 text *)

Lemma enc1_ascii c : c < 128 -> utf8_encode1 c = [c].
Proof. intros H. unfold utf8_encode1. replace (c <? 0x80) with true by lia. reflexivity. Qed.

Lemma enc1_high c b : 128 <= c -> In b (utf8_encode1 c) -> 128 <= b.
Proof.
  intros H. unfold utf8_encode1. replace (c <? 0x80) with false by lia.
  repeat case_if; simpl; intuition lia.
Qed.

Lemma ascii_split cs pre c post :
  c < 128 -> flat_map utf8_encode1 cs = pre ++ c :: post ->
  exists cpre cpost, cs = cpre ++ c :: cpost
    /\ pre = flat_map utf8_encode1 cpre /\ post = flat_map utf8_encode1 cpost.
Proof.
  intros Hc. revert pre. induction cs as [|x cs IH]; intros pre; simpl.
  - intros H. destruct pre; discriminate.
  - destruct (N.ltb_spec x 128) as [Hx|Hx].
    + rewrite (enc1_ascii x Hx). simpl. destruct pre as [|y pre]; simpl; intros H.
      * injection H as -> Hp. exists [], cs. auto.
      * injection H as -> Hp. destruct (IH _ Hp) as (a & b & -> & -> & ->).
        exists (y :: a), b. simpl. rewrite (enc1_ascii y Hx). auto.
    + intros H.
      assert (Hin : forall l p, (forall b, In b l -> 128 <= b) ->
                l ++ flat_map utf8_encode1 cs = p ++ c :: post ->
                exists q, p = l ++ q /\ flat_map utf8_encode1 cs = q ++ c :: post).
      { clear H IH pre. induction l as [|z l IHl]; intros p Hl H.
        - exists p. auto.
        - destruct p as [|w p]; simpl in H; injection H as -> H.
          + specialize (Hl c (or_introl eq_refl)). lia.
          + destruct (IHl p) as (q & -> & Hq); auto.
            * intros b Hb. apply Hl. right; auto.
            * exists q. auto. }
      destruct (Hin _ _ (fun b => enc1_high x b Hx) H) as (q & -> & Hq).
      destruct (IH _ Hq) as (a & b & -> & -> & ->).
      exists (x :: a), b. auto.
Qed.

Lemma ascii_join cpre c cpost :
  c < 128 -> flat_map utf8_encode1 (cpre ++ c :: cpost)
             = flat_map utf8_encode1 cpre ++ c :: flat_map utf8_encode1 cpost.
Proof. intros H. rewrite flat_map_app. simpl. rewrite (enc1_ascii c H). reflexivity. Qed.

Lemma ascii_in_utf8 s cs c : text s cs -> c < 128 -> (In c s <-> In c cs).
Proof.
  intros [_ ->] Hc. split; intros H.
  - apply in_split in H. destruct H as (a & b & H).
    destruct (ascii_split _ _ _ _ Hc H) as (x & y & -> & _). apply in_elt.
  - apply in_split in H. destruct H as (a & b & ->). rewrite ascii_join by auto. apply in_elt.
Qed.

Lemma enc1_nonempty c : utf8_encode1 c <> [].
Proof. unfold utf8_encode1. repeat case_if; discriminate. Qed.

Lemma text_nil s cs : text s cs -> (s = [] <-> cs = []).
Proof.
  intros [_ ->]. destruct cs as [|c cs]; simpl; [tauto|].
  split; [|discriminate]. intros H. apply app_eq_nil in H. destruct H as [H _].
  exfalso; exact (enc1_nonempty _ H).
Qed.

Lemma left_edge_text cs : left_edge (flat_map utf8_encode1 cs) <-> left_edge cs.
Proof.
  unfold left_edge. split; intros [H|[p H]].
  - left. destruct cs as [|c cs]; auto. simpl in H. apply app_eq_nil in H.
    exfalso; exact (enc1_nonempty _ (proj1 H)).
  - right. destruct (ascii_split cs p 47 [] ltac:(lia) H) as (a & b & -> & _ & Hb).
    exists a. destruct b as [|x b]; auto. simpl in Hb. symmetry in Hb. apply app_eq_nil in Hb.
    exfalso; exact (enc1_nonempty _ (proj1 Hb)).
  - left. subst; reflexivity.
  - right. subst. exists (flat_map utf8_encode1 p). apply ascii_join. lia.
Qed.

Lemma right_edge_text cs : right_edge (flat_map utf8_encode1 cs) <-> right_edge cs.
Proof.
  unfold right_edge. split; intros [H|[p H]].
  - left. destruct cs as [|c cs]; auto. simpl in H. apply app_eq_nil in H.
    exfalso; exact (enc1_nonempty _ (proj1 H)).
  - right. destruct (ascii_split cs [] 47 p ltac:(lia) H) as (a & b & -> & Ha & _).
    exists b. destruct a as [|x a]; auto. simpl in Ha. symmetry in Ha. apply app_eq_nil in Ha.
    exfalso; exact (enc1_nonempty _ (proj1 Ha)).
  - left. subst; reflexivity.
  - right. subst. exists (flat_map utf8_encode1 p). exact (ascii_join [] 47 p ltac:(lia)).
Qed.

(** ** Splitting *)

Lemma contains_iff c s : contains c s = true <-> In c s.
Proof.
  unfold contains. rewrite existsb_exists. split.
  - intros (x & Hx & E). apply N.eqb_eq in E. subst; auto.
  - intros H. exists c. split; auto. apply N.eqb_refl.
Qed.
Lemma contains_false c s : contains c s = false <-> ~ In c s.
Proof. rewrite <- contains_iff. destruct (contains c s); intuition discriminate. Qed.

Lemma levels_cons s : exists l ls, levels s = l :: ls.
Proof.
  unfold levels. destruct s as [|c s]; simpl; eauto.
  destruct (c =? c_slash); eauto. destruct (split c_slash s); eauto.
Qed.

Lemma join_cons2 l m ls : join (l :: m :: ls) = l ++ 47 :: join (m :: ls).
Proof. reflexivity. Qed.

Lemma levels_spec s : has_levels s (levels s).
Proof.
  unfold has_levels. split; [|split].
  - destruct (levels_cons s) as (l & ls & ->). discriminate.
  - unfold levels. induction s as [|c s IH]; simpl; auto.
    destruct (levels_cons s) as (l & ls & E). unfold levels in E.
    rewrite E in IH. rewrite E. destruct (c =? c_slash) eqn:Ec.
    + apply N.eqb_eq in Ec. subst c. rewrite join_cons2, <- IH. reflexivity.
    + destruct ls as [|m ls]; simpl in *; rewrite IH; reflexivity.
  - unfold levels. induction s as [|c s IH]; simpl; [repeat constructor; auto|].
    destruct (levels_cons s) as (l & ls & E). unfold levels in E.
    destruct (c =? c_slash) eqn:Ec.
    + constructor; auto.
    + rewrite E in *. inversion IH; subst. constructor; auto.
      apply N.eqb_neq in Ec. simpl. intros [->|H]; [apply Ec; reflexivity|auto].
Qed.

Lemma split_noslash l : ~ In 47 l -> split c_slash l = [l].
Proof.
  induction l as [|c l IH]; simpl; intros H; auto.
  replace (c =? c_slash) with false by (unfold c_slash; symmetry; apply N.eqb_neq; intuition).
  rewrite IH by tauto. reflexivity.
Qed.

Lemma split_app l s : ~ In 47 l -> split c_slash (l ++ 47 :: s) = l :: split c_slash s.
Proof.
  induction l as [|c l IH]; intros H.
  - reflexivity.
  - change ((c :: l) ++ 47 :: s) with (c :: (l ++ 47 :: s)). simpl split.
    replace (c =? c_slash) with false
      by (unfold c_slash; symmetry; apply N.eqb_neq; intros ->; apply H; left; auto).
    rewrite IH by (intros Hi; apply H; right; auto). reflexivity.
Qed.

Lemma levels_unique s ls : has_levels s ls -> levels s = ls.
Proof.
  intros (Hne & -> & Hf). unfold levels.
  induction ls as [|l ls IH]; [contradiction|].
  inversion Hf as [|? ? Hl Hls]; subst. destruct ls as [|m ls].
  - apply split_noslash; auto.
  - rewrite join_cons2, split_app by auto. f_equal. apply IH; auto. discriminate.
Qed.

Lemma levels_inj s t : levels s = levels t -> s = t.
Proof.
  intros H. destruct (levels_spec s) as (_ & -> & _). destruct (levels_spec t) as (_ & E & _).
  rewrite H, <- E. reflexivity.
Qed.

Lemma matches_iff f t : matches f t <-> level_match (levels f) (levels t).
Proof.
  split.
  - intros (fl & tl & Hf & Ht & H).
    rewrite (levels_unique _ _ Hf), (levels_unique _ _ Ht). exact H.
  - intros H. exists (levels f), (levels t). auto using levels_spec.
Qed.

(** ** Publish topics *)

Lemma validate_common_iff s cs : text s cs ->
  (validate_common s = None <-> cs <> [] /\ blen s <= 65535 /\ ~ In 0 cs).
Proof.
  intros H. pose proof (text_nil s cs H) as Hn. pose proof (ascii_in_utf8 s cs 0 H ltac:(lia)) as H0.
  unfold validate_common, MAX_TOPIC_LENGTH, c_nul. destruct s as [|x s].
  - split; [discriminate|]. intros (Hc & _). exfalso; apply Hc, Hn; reflexivity.
  - destruct (65535 <? blen (x :: s)) eqn:E1.
    + split; [discriminate|]. intros (_ & Hl & _). lia.
    + destruct (contains 0 (x :: s)) eqn:E2.
      * apply contains_iff in E2. split; [discriminate|]. tauto.
      * apply contains_false in E2. split; auto. intros _.
        repeat split; [|lia|tauto]. intros Hc. apply Hn in Hc. discriminate.
Qed.

Lemma publish_topic_iff s : utf8 s -> (validate_publish_topic s = None <-> topic_name s).
Proof.
  intros (cs & Hs & Es). assert (Ht : text s cs) by (split; auto).
  unfold validate_publish_topic, topic_name, c_plus, c_hash.
  pose proof (validate_common_iff s cs Ht) as Hc.
  split.
  - destruct (validate_common s); [discriminate|].
    destruct (contains 43 s) eqn:E1; [discriminate|]. destruct (contains 35 s) eqn:E2; [discriminate|].
    intros _. apply contains_false in E1, E2.
    exists cs. destruct Hc as [Hc _]. destruct (Hc eq_refl) as (a & b & c).
    rewrite (ascii_in_utf8 s cs 43 Ht) in E1 by lia.
    rewrite (ascii_in_utf8 s cs 35 Ht) in E2 by lia. auto 10.
  - intros (cs' & Ht' & Hne & Hl & H0 & H1 & H2).
    destruct (validate_common_iff s cs' Ht') as [_ Hc'].
    rewrite Hc' by auto.
    replace (contains 43 s) with false
      by (symmetry; apply contains_false; rewrite (ascii_in_utf8 s cs' 43 Ht' ltac:(lia)); auto).
    replace (contains 35 s) with false
      by (symmetry; apply contains_false; rewrite (ascii_in_utf8 s cs' 35 Ht' ltac:(lia)); auto).
    reflexivity.
Qed.

(** ** Subscription filters *)

(** Wildcards are whole levels, and "#" is the last one. *)
Fixpoint ok_levels (ls : list bytes) : Prop :=
  match ls with
  | [] => True
  | l :: ls => (In 43 l -> l = [43]) /\ (In 35 l -> l = [35] /\ ls = []) /\ ok_levels ls
  end.

Lemma check_levels_iff ls : forall n i, n = (i + length ls)%nat ->
  (check_levels n i ls = None <-> ok_levels ls).
Proof.
  induction ls as [|l ls IH]; intros n i Hn; simpl; [tauto|].
  simpl in Hn. specialize (IH n (S i) ltac:(lia)).
  destruct (contains c_plus l) eqn:E1; simpl.
  - apply contains_iff in E1. unfold c_plus in E1.
    destruct (bytes_eqb l str_plus) eqn:E2; simpl.
    + apply bytes_eqb_eq in E2. subst l. unfold str_plus, c_plus, c_hash. simpl.
      replace (N.eqb 35 43) with false by reflexivity. simpl. rewrite IH. intuition discriminate.
    + split; [discriminate|]. intros (H & _). specialize (H E1). subst l.
      rewrite bytes_eqb_refl in E2. discriminate.
  - apply contains_false in E1. unfold c_plus in E1.
    destruct (contains c_hash l) eqn:E3; simpl.
    + apply contains_iff in E3. unfold c_hash in E3.
      destruct (bytes_eqb l str_hash) eqn:E2; simpl.
      * apply bytes_eqb_eq in E2. subst l. destruct (Nat.eqb_spec i (n - 1)) as [Hi|Hi]; simpl.
        -- assert (ls = []) by (destruct ls; auto; simpl in Hn; lia). subst ls.
           simpl. unfold str_hash, c_hash. intuition (try discriminate).
        -- split; [discriminate|]. intros (_ & H & _). destruct (H E3) as [_ ->]. simpl in Hn. lia.
      * split; [discriminate|]. intros (_ & H & _). destruct (H E3) as [-> _].
        rewrite bytes_eqb_refl in E2. discriminate.
    + apply contains_false in E3. unfold c_hash in E3. rewrite IH. intuition.
Qed.

Definition jpre (ls : list bytes) : bytes := flat_map (fun l => l ++ [47]) ls.
Definition jpost (ls : list bytes) : bytes := flat_map (fun l => 47 :: l) ls.

Lemma join_jpost l ls : join (l :: ls) = l ++ jpost ls.
Proof.
  revert l. induction ls as [|m ls IH]; intros l.
  - simpl. rewrite app_nil_r. reflexivity.
  - rewrite join_cons2, IH. reflexivity.
Qed.

Lemma jpost_mid ls1 l ls2 : jpost (ls1 ++ l :: ls2) = 47 :: jpre ls1 ++ l ++ jpost ls2.
Proof.
  induction ls1 as [|m ls1 IH]; [reflexivity|].
  change (jpost ((m :: ls1) ++ l :: ls2)) with (47 :: m ++ jpost (ls1 ++ l :: ls2)).
  rewrite IH. unfold jpre; simpl. rewrite <- !app_assoc. reflexivity.
Qed.

Lemma join_mid ls1 l ls2 : join (ls1 ++ l :: ls2) = jpre ls1 ++ l ++ jpost ls2.
Proof.
  destruct ls1 as [|m ls1]; [apply join_jpost|].
  simpl app at 1. rewrite join_jpost, jpost_mid. unfold jpre; simpl. rewrite <- !app_assoc. reflexivity.
Qed.

Lemma in_join ls c pre post : c <> 47 -> join ls = pre ++ c :: post ->
  exists ls1 l ls2 a b, ls = ls1 ++ l :: ls2 /\ l = a ++ c :: b
    /\ pre = jpre ls1 ++ a /\ post = b ++ jpost ls2.
Proof.
  intros Hc. revert pre. induction ls as [|l ls IH]; intros pre H.
  - destruct pre; discriminate.
  - rewrite join_jpost in H.
    assert (Hsplit : (exists b, l = pre ++ c :: b /\ post = b ++ jpost ls)
                     \/ exists q, pre = l ++ q /\ jpost ls = q ++ c :: post).
    { clear IH. revert pre H. induction l as [|x l IHl]; intros pre H.
      - right. exists pre. auto.
      - destruct pre as [|y pre]; simpl in H; injection H as -> H.
        + left. exists l. auto.
        + destruct (IHl _ H) as [(b & -> & ->)|(q & -> & Hq)].
          * left. exists b. auto.
          * right. exists q. auto. }
    destruct Hsplit as [(b & El & Ep)|(q & Ep & Eq)].
    + exists [], l, ls, pre, b. simpl. auto.
    + destruct ls as [|m ls]; [destruct q; discriminate|].
      simpl in Eq. destruct q as [|y q]; simpl in Eq; injection Eq as Ey Eq; [congruence|].
      subst y. fold (jpost ls) in Eq. rewrite <- join_jpost in Eq.
      destruct (IH _ Eq) as (ls1 & l' & ls2 & a & b & El' & Hl' & Hq & Hp).
      exists (l :: ls1), l', ls2, a, b. rewrite El'. subst. simpl. rewrite <- !app_assoc. auto.
Qed.

Definition well_placed (s : bytes) : Prop :=
  (forall pre post, s = pre ++ 43 :: post -> left_edge pre /\ right_edge post)
  /\ (forall pre post, s = pre ++ 35 :: post -> left_edge pre /\ post = []).

Lemma jpre_edge ls : left_edge (jpre ls).
Proof.
  destruct ls as [|l ls] using rev_ind; [left; reflexivity|].
  right. unfold jpre. rewrite flat_map_app. simpl. rewrite app_nil_r, app_assoc. eauto.
Qed.
Lemma jpost_edge ls : right_edge (jpost ls).
Proof. destruct ls as [|l ls]; [left; reflexivity|]. right. simpl. eauto. Qed.

Lemma left_edge_level ls a : ~ In 47 a -> left_edge (jpre ls ++ a) -> a = [].
Proof.
  intros Ha H. destruct a as [|x a] using rev_ind; auto. exfalso.
  destruct H as [H|[p H]].
  - apply app_eq_nil in H. destruct H as [_ H]. apply app_eq_nil in H. destruct H; discriminate.
  - rewrite app_assoc in H. apply app_inj_tail in H. destruct H as [_ ->].
    apply Ha. apply in_app_iff. right; left; auto.
Qed.
Lemma right_edge_level ls b : ~ In 47 b -> right_edge (b ++ jpost ls) -> b = [].
Proof.
  intros Hb H. destruct b as [|x b]; auto. exfalso.
  destruct H as [H|[p H]]; [discriminate|]. simpl in H. injection H as -> H. apply Hb. left; auto.
Qed.

Lemma ok_levels_app ls1 l ls2 : ok_levels (ls1 ++ l :: ls2) ->
  (In 43 l -> l = [43]) /\ (In 35 l -> l = [35] /\ ls2 = []).
Proof.
  induction ls1 as [|m ls1 IH]; simpl; tauto.
Qed.

Lemma ok_levels_well_placed ls : Forall (fun l => ~ In 47 l) ls ->
  (ok_levels ls <-> well_placed (join ls)).
Proof.
  intros Hf. split.
  - intros Hok. split; intros pre post H.
    + destruct (in_join ls 43 pre post ltac:(lia) H) as (ls1 & l & ls2 & a & b & -> & Hl & -> & ->).
      destruct (ok_levels_app _ _ _ Hok) as [H1 _].
      rewrite H1 in Hl by (subst; apply in_elt).
      destruct a as [|x a]; [|destruct a; discriminate].
      simpl in Hl. injection Hl as <-. rewrite app_nil_r. split; [apply jpre_edge | apply jpost_edge].
    + destruct (in_join ls 35 pre post ltac:(lia) H) as (ls1 & l & ls2 & a & b & -> & Hl & -> & ->).
      destruct (ok_levels_app _ _ _ Hok) as [_ H2].
      destruct H2 as [H2 ->]; [subst; apply in_elt|]. rewrite H2 in Hl.
      destruct a as [|x a]; [|destruct a; discriminate].
      simpl in Hl. injection Hl as <-. rewrite app_nil_r. split; [apply jpre_edge | reflexivity].
  - intros [H1 H2].
    assert (Hgen : forall ls1 ls2, ls = ls1 ++ ls2 -> ok_levels ls2).
    { intros ls1 ls2. revert ls1. induction ls2 as [|l ls2 IH]; intros ls1 E; simpl; auto.
      assert (Hl : ~ In 47 l).
      { rewrite Forall_forall in Hf. apply Hf. rewrite E. apply in_elt. }
      split; [|split].
      - intros Hi. apply in_split in Hi. destruct Hi as (a & b & ->).
        destruct (H1 (jpre ls1 ++ a) (b ++ jpost ls2)) as [Ha Hb].
        { rewrite E, join_mid, <- !app_assoc. reflexivity. }
        apply left_edge_level in Ha; [|intros Hi; apply Hl, in_app_iff; auto].
        apply right_edge_level in Hb; [|intros Hi; apply Hl, in_app_iff; right; right; auto].
        subst; reflexivity.
      - intros Hi. apply in_split in Hi. destruct Hi as (a & b & ->).
        destruct (H2 (jpre ls1 ++ a) (b ++ jpost ls2)) as [Ha Hb].
        { rewrite E, join_mid, <- !app_assoc. reflexivity. }
        apply left_edge_level in Ha; [|intros Hi; apply Hl, in_app_iff; auto].
        apply app_eq_nil in Hb. destruct Hb as [-> Hb]. subst a.
        split; auto. destruct ls2; auto; discriminate.
      - apply (IH (ls1 ++ [l])). rewrite <- app_assoc. exact E. }
    apply (Hgen [] ls). reflexivity.
Qed.

Lemma well_placed_text s cs : text s cs ->
  (well_placed s <->
   (forall pre post, cs = pre ++ 43 :: post -> left_edge pre /\ right_edge post)
   /\ (forall pre post, cs = pre ++ 35 :: post -> left_edge pre /\ post = [])).
Proof.
  intros [_ ->]. unfold well_placed. split; intros [H1 H2]; split; intros pre post E.
  - subst. rewrite <- left_edge_text, <- right_edge_text. apply H1, ascii_join. lia.
  - subst. rewrite <- left_edge_text. destruct (H2 _ _ (ascii_join pre 35 post ltac:(lia))) as [Ha Hb].
    split; auto. destruct post as [|x post]; auto. simpl in Hb. apply app_eq_nil in Hb.
    exfalso; exact (enc1_nonempty _ (proj1 Hb)).
  - destruct (ascii_split cs pre 43 post ltac:(lia) E) as (a & b & -> & -> & ->).
    rewrite left_edge_text, right_edge_text. apply H1. reflexivity.
  - destruct (ascii_split cs pre 35 post ltac:(lia) E) as (a & b & -> & -> & ->).
    rewrite left_edge_text. destruct (H2 _ _ eq_refl) as [Ha ->]. auto.
Qed.

Lemma subscribe_filter_iff s : utf8 s -> (validate_subscribe_filter s = None <-> topic_filter s).
Proof.
  intros (cs & Hs & Es). assert (Ht : text s cs) by (split; auto).
  assert (Hw : validate_subscribe_filter s = None <-> validate_common s = None /\ well_placed s).
  { unfold validate_subscribe_filter. destruct (validate_common s).
    - split; [discriminate | intros [H _]; discriminate].
    - rewrite check_levels_iff by reflexivity.
      destruct (levels_spec s) as (_ & E & Hf).
      rewrite (ok_levels_well_placed _ Hf), <- E. tauto. }
  rewrite Hw. unfold topic_filter. split.
  - intros [Hc Hp]. apply (validate_common_iff s cs Ht) in Hc. apply (well_placed_text s cs Ht) in Hp.
    exists cs. tauto.
  - intros (cs' & Ht' & H1 & H2 & H3 & H4). split.
    + apply (validate_common_iff s cs' Ht'). auto.
    + apply (well_placed_text s cs' Ht'). auto.
Qed.

(** What validation gives for the levels. *)
Lemma filter_ok_levels f : validate_subscribe_filter f = None -> ok_levels (levels f).
Proof.
  unfold validate_subscribe_filter. destruct (validate_common f); [discriminate|].
  apply check_levels_iff. reflexivity.
Qed.

Definition plain (l : bytes) : Prop := l <> str_plus /\ l <> str_hash.

Lemma in_level_in s l c : In l (levels s) -> In c l -> In c s.
Proof.
  intros Hl Hc. destruct (levels_spec s) as (_ & E & _).
  apply in_split in Hl. destruct Hl as (a & b & El). rewrite El, join_mid in E.
  rewrite E. apply in_app_iff; right. apply in_app_iff; left. exact Hc.
Qed.

Lemma publish_topic_plain t : validate_publish_topic t = None -> Forall plain (levels t).
Proof.
  unfold validate_publish_topic. destruct (validate_common t); [discriminate|].
  destruct (contains c_plus t) eqn:E1; [discriminate|].
  destruct (contains c_hash t) eqn:E2; [discriminate|]. intros _.
  apply contains_false in E1, E2. apply Forall_forall. intros l Hl.
  split; intros ->; [apply E1 | apply E2]; eapply in_level_in; eauto; left; reflexivity.
Qed.

Lemma topic_name_utf8 t : topic_name t -> utf8 t.
Proof. intros (cs & [H1 H2] & _). exists cs. auto. Qed.
Lemma topic_name_plain t : topic_name t -> Forall plain (levels t).
Proof. intros H. apply publish_topic_plain, publish_topic_iff; auto using topic_name_utf8. Qed.
Lemma topic_filter_utf8 t : topic_filter t -> utf8 t.
Proof. intros (cs & [H1 H2] & _). exists cs. auto. Qed.
Lemma topic_filter_ok t : topic_filter t -> ok_levels (levels t).
Proof. intros H. apply filter_ok_levels, subscribe_filter_iff; auto using topic_filter_utf8. Qed.
