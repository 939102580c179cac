(** Proofs about Passwd.v. *)
From Coq Require Import Permutation String.
From Verif Require Import Base Utf8 Codec SpecCodec Tac Maps TreeFacts Auth Credentials Server Str Passwd SpecPasswd.
Local Open Scope list_scope.

(** ** Characters *)
Lemma is_space_iff c : is_space c = true <-> space c.
Proof.
  unfold is_space, space, white_space, in_range. split.
  - intros H. cbn [In].
    repeat (apply orb_true_iff in H; destruct H as [H|H]);
    try (apply andb_true_iff in H; destruct H as [H1 H2]; apply N.leb_le in H1; apply N.leb_le in H2);
    try (apply N.eqb_eq in H; subst c); try tauto; try lia.
  - intros H. repeat (destruct H as [<-|H]; [reflexivity|]). destruct H.
Qed.
Lemma is_space_not c : is_space c = false <-> ~ space c.
Proof. rewrite <- is_space_iff. destruct (is_space c); split; congruence. Qed.
Lemma space_10 : space 10. Proof. right. left. reflexivity. Qed.
Lemma nospace_58 : ~ space 58. Proof. rewrite <- is_space_not. reflexivity. Qed.
Lemma nospace_35 : ~ space 35. Proof. rewrite <- is_space_not. reflexivity. Qed.

Lemma not_first_cons P c r : not_first P (c :: r) <-> ~ P c.
Proof. split; [intros H; exact (H c r eq_refl)|]. intros H d q E. injection E as <- _. exact H. Qed.
Lemma not_last_snoc P c r : not_last P (r ++ [c]) <-> ~ P c.
Proof.
  split; [intros H; exact (H c r eq_refl)|]. intros H d q E. apply app_inj_tail in E. destruct E as [_ <-]. exact H.
Qed.
Lemma not_first_nil P : not_first P []. Proof. intros c r E. discriminate. Qed.
Lemma not_last_nil P : not_last P []. Proof. intros c r E. destruct r; discriminate. Qed.
Lemma not_first_rev P l : not_first P (rev l) <-> not_last P l.
Proof.
  split; intros H c r E.
  - apply (H c (rev r)). rewrite E, rev_app_distr. reflexivity.
  - apply (H c (rev r)). rewrite <- (rev_involutive l), E. reflexivity.
Qed.

(** ** trim *)
Lemma trim_start_blank a s : blank a -> trim_start (a ++ s) = trim_start s.
Proof. induction 1 as [|c a Hc _ IH]; [reflexivity|]. simpl. apply is_space_iff in Hc. rewrite Hc. exact IH. Qed.
Lemma trim_start_id s : not_first space s -> trim_start s = s.
Proof.
  destruct s as [|c s]; [reflexivity|]. intros H. apply not_first_cons, is_space_not in H. simpl. rewrite H. reflexivity.
Qed.
Lemma trim_start_split s : exists a, s = a ++ trim_start s /\ blank a /\ not_first space (trim_start s).
Proof.
  induction s as [|c s (a & E & Ha & Hf)]; [exists []; repeat split; [constructor|apply not_first_nil]|].
  simpl. destruct (is_space c) eqn:Ec.
  - exists (c :: a). split; [simpl; congruence|]. split; auto. constructor; auto. apply is_space_iff, Ec.
  - exists []. split; [reflexivity|]. split; [constructor|]. apply not_first_cons, is_space_not, Ec.
Qed.
Lemma blank_rev a : blank a -> blank (rev a).
Proof. apply Forall_rev. Qed.
Lemma blank_app a b : blank (a ++ b) <-> blank a /\ blank b.
Proof. apply Forall_app. Qed.
Lemma trim_split s : exists a b, s = a ++ trim s ++ b /\ blank a /\ blank b
  /\ not_first space (trim s) /\ not_last space (trim s).
Proof.
  unfold trim. destruct (trim_start_split s) as (a & E & Ha & Hf).
  destruct (trim_start_split (rev (trim_start s))) as (b & E2 & Hb & Hl).
  exists a, (rev b). assert (E3 : trim_start s = rev (trim_start (rev (trim_start s))) ++ rev b).
  { rewrite <- rev_app_distr, <- E2, rev_involutive. reflexivity. }
  split; [rewrite <- E3; exact E|]. split; auto. split; [apply blank_rev, Hb|]. split.
  - set (t := rev (trim_start (rev (trim_start s)))) in *. clearbody t. destruct t as [|c t]; [apply not_first_nil|].
    rewrite E3 in Hf. apply not_first_cons in Hf. apply not_first_cons. exact Hf.
  - apply not_first_rev. rewrite rev_involutive. exact Hl.
Qed.
Lemma trim_unique a m b : blank a -> blank b -> not_first space m -> not_last space m -> trim (a ++ m ++ b) = m.
Proof.
  intros Ha Hb Hf Hl. unfold trim. rewrite trim_start_blank by exact Ha. destruct m as [|c m].
  - simpl. assert (E : trim_start b = []) by (rewrite <- (app_nil_r b), trim_start_blank; [reflexivity|exact Hb]).
    rewrite E. reflexivity.
  - rewrite (trim_start_id ((c :: m) ++ b)) by (apply not_first_cons; apply not_first_cons in Hf; exact Hf).
    rewrite rev_app_distr, trim_start_blank by (apply blank_rev, Hb).
    rewrite trim_start_id by (apply not_first_rev; exact Hl). apply rev_involutive.
Qed.
Lemma trim_blank l : trim l = [] <-> blank l.
Proof.
  split.
  - intros H. destruct (trim_split l) as (a & b & E & Ha & Hb & _). rewrite H in E. simpl in E. subst l. apply blank_app. auto.
  - intros H. pose proof (trim_unique l [] [] H ltac:(constructor) (not_first_nil _) (not_last_nil _)) as E.
    simpl in E. rewrite app_nil_r in E. exact E.
Qed.

(** ** split_once *)
Lemma split_once_some d s a b : split_once d s = Some (a, b) <-> s = a ++ d :: b /\ ~ In d a.
Proof.
  revert a b. induction s as [|c s IH]; intros a b; simpl.
  - split; [discriminate|]. intros [E _]. destruct a; discriminate.
  - destruct (c =? d) eqn:Ec.
    + apply N.eqb_eq in Ec. subst c. split.
      * intros H. injection H as <- <-. split; [reflexivity|intros []].
      * intros [E Hn]. destruct a as [|x a]; [simpl in E; congruence|]. injection E as <- _. exfalso. apply Hn. left; reflexivity.
    + apply N.eqb_neq in Ec. destruct (split_once d s) as [[a' b']|] eqn:Es.
      * split.
        -- intros H. injection H as <- <-. destruct (proj1 (IH a' b') eq_refl) as [-> Hn]. split; [reflexivity|].
           intros [->|H]; [congruence|tauto].
        -- intros [E Hn]. destruct a as [|x a]; [simpl in E; congruence|]. injection E as <- E.
           assert (H : Some (a', b') = Some (a, b)) by (apply IH; split; [exact E|intros H; apply Hn; right; exact H]).
           congruence.
      * split; [discriminate|]. intros [E Hn]. destruct a as [|x a]; [simpl in E; congruence|]. injection E as <- E.
        assert (H : None = Some (a, b)) by (apply IH; split; [exact E|intros H; apply Hn; right; exact H]). discriminate.
Qed.
Lemma split_once_none d s : split_once d s = None <-> ~ In d s.
Proof.
  split.
  - intros H Hi. apply in_split in Hi. destruct Hi as (a & b & Hi).
    revert s H Hi. induction a as [|x a IH]; intros s H Hi; subst s; simpl in H.
    + rewrite N.eqb_refl in H. discriminate.
    + destruct (x =? d); [discriminate|]. eapply (IH (a ++ d :: b)); [|reflexivity].
      destruct (split_once d (a ++ d :: b)) as [[? ?]|]; [discriminate|reflexivity].
  - intros H. destruct (split_once d s) as [[a b]|] eqn:E; [|reflexivity]. exfalso. apply H.
    apply split_once_some in E. destruct E as [-> _]. apply in_app_iff. right. left. reflexivity.
Qed.

(** ** lines *)
Lemma lines_cat l s : ~ In 10 l -> lines (l ++ 10 :: s) = l :: lines s.
Proof.
  induction l as [|c l IH]; intros H; [reflexivity|]. simpl.
  replace (c =? 10) with false by (symmetry; apply N.eqb_neq; intros ->; apply H; left; reflexivity).
  rewrite IH by (intros Hi; apply H; right; exact Hi). reflexivity.
Qed.
Lemma lines_last l : l <> [] -> ~ In 10 l -> lines l = [l].
Proof.
  induction l as [|c l IH]; intros H Hn; [congruence|]. simpl.
  replace (c =? 10) with false by (symmetry; apply N.eqb_neq; intros ->; apply Hn; left; reflexivity).
  destruct l as [|d l]; [reflexivity|]. rewrite IH; [reflexivity|discriminate|]. intros Hi. apply Hn. right. exact Hi.
Qed.
Lemma text_lines_lines t ls : text_lines t ls <-> lines t = ls.
Proof.
  split.
  - induction 1 as [|l Hl Hn|l s ls Hn _ IH]; [reflexivity|apply lines_last; auto|]. rewrite lines_cat by exact Hn. congruence.
  - intros <-. remember (length t) as n eqn:En. assert (Hle : (length t <= n)%nat) by lia. clear En.
    revert t Hle. induction n as [|n IH]; intros t Hle.
    + destruct t; [constructor|simpl in Hle; lia].
    + destruct (in_dec N.eq_dec 10 t) as [Hi|Hi].
      * assert (Hs : exists l s, t = l ++ 10 :: s /\ ~ In 10 l).
        { destruct (split_once 10 t) as [[l s]|] eqn:E; [apply split_once_some in E; eauto|].
          apply split_once_none in E. contradiction. }
        destruct Hs as (l & s & -> & Hn). rewrite lines_cat by exact Hn. constructor; [exact Hn|].
        apply IH. rewrite app_length in Hle. simpl in Hle. lia.
      * destruct t as [|c t]; [constructor|]. rewrite lines_last by (auto; discriminate). constructor; [discriminate|exact Hi].
Qed.
Lemma text_lines_no_lf t ls l : text_lines t ls -> In l ls -> ~ In 10 l.
Proof.
  induction 1 as [|k Hk Hn|k s ls Hn _ IH]; intros Hi; [destruct Hi| |].
  - destruct Hi as [<-|[]]. exact Hn.
  - destruct Hi as [<-|Hi]; auto.
Qed.

(** ** Lines *)
Lemma entry_trim l u h : entry_line l u h ->
  trim l = u ++ 58 :: h /\ ~ In 58 u /\ not_first space u /\ not_first (eq 35) u /\ not_last space h.
Proof.
  intros (a & b & -> & Ha & Hb & Hc & Hf & H35 & Hl). split; [|tauto].
  replace (a ++ u ++ 58 :: h ++ b) with (a ++ (u ++ 58 :: h) ++ b) by (rewrite <- app_assoc; reflexivity).
  apply trim_unique; auto.
  - destruct u as [|c u]; simpl; apply not_first_cons; [apply nospace_58|apply not_first_cons in Hf; exact Hf].
  - destruct h as [|c h] using rev_ind; [apply not_last_snoc, nospace_58|]. clear IHh.
    rewrite app_comm_cons, app_assoc. apply not_last_snoc. apply not_last_snoc in Hl. exact Hl.
Qed.
Lemma entry_unique l u h u' h' : entry_line l u h -> entry_line l u' h' -> u = u' /\ h = h'.
Proof.
  intros H1 H2. apply entry_trim in H1. apply entry_trim in H2. destruct H1 as (E1 & N1 & _), H2 as (E2 & N2 & _).
  assert (H : Some (u, h) = Some (u', h')); [|injection H; auto].
  rewrite <- (proj2 (split_once_some 58 (trim l) u h) (conj E1 N1)). apply split_once_some. auto.
Qed.
Lemma ignored_not_entry l u h : ignored l -> ~ entry_line l u h.
Proof.
  intros Hi He. apply entry_trim in He. destruct He as (E & Hn & Hf & H35 & _). destruct Hi as [Hb|(a & r & Ha & ->)].
  - apply trim_blank in Hb. rewrite Hb in E. destruct u; discriminate.
  - destruct (trim_split (35 :: r)) as (x & y & E2 & Hx & Hy & _ & Ht).
    assert (Hx0 : x = []).
    { destruct x as [|c x]; [reflexivity|]. injection E2 as <- _. apply Forall_inv in Hx. exfalso. apply nospace_35, Hx. }
    subst x. simpl in E2. set (t := trim (35 :: r)) in *. clearbody t.
    destruct t as [|c t]; [simpl in E2; subst y; apply Forall_inv in Hy; exfalso; apply nospace_35, Hy|].
    injection E2 as <- E2. rewrite E2 in E.
    change (a ++ 35 :: t ++ y) with (a ++ (35 :: t) ++ y) in E. rewrite trim_unique in E; auto.
    + destruct u as [|c u]; [discriminate|]. injection E as <- _. apply not_first_cons in H35. apply H35. reflexivity.
    + apply not_first_cons, nospace_35.
Qed.
(** Every line is exactly one of these. *)
Lemma line_cases l :
  (ignored l /\ forall ls acc, load_lines (l :: ls) acc = load_lines ls acc)
  \/ (exists u h, entry_line l u h /\ forall ls acc, load_lines (l :: ls) acc = load_lines ls (aput bytes_eqb u h acc))
  \/ (~ ignored l /\ (forall u h, ~ entry_line l u h) /\ forall ls acc, load_lines (l :: ls) acc = None).
Proof.
  destruct (trim_split l) as (a & b & E & Ha & Hb & Hf & Hl). cbn [load_lines]. remember (trim l) as t eqn:Et.
  destruct t as [|c t].
  - left. split; [|reflexivity]. left. apply trim_blank. auto.
  - destruct (c =? 35) eqn:Ec.
    + left. split; [|reflexivity]. right. apply N.eqb_eq in Ec. subst c. exists a, (t ++ b). auto.
    + right. apply N.eqb_neq in Ec. destruct (split_once 58 (c :: t)) as [[u h]|] eqn:Es.
      * left. exists u, h. split; [|reflexivity]. apply split_once_some in Es. destruct Es as [Es Hn].
        exists a, b. rewrite Es in E. split; [rewrite <- app_assoc in E; exact E|]. split; auto. split; auto. split; auto.
        split; [|split].
        -- destruct u as [|x u]; [apply not_first_nil|]. injection Es as -> _. apply not_first_cons. apply not_first_cons in Hf. exact Hf.
        -- destruct u as [|x u]; [apply not_first_nil|]. injection Es as -> _. apply not_first_cons. congruence.
        -- destruct h as [|x h] using rev_ind; [apply not_last_nil|]. clear IHh.
           rewrite Es, app_comm_cons, app_assoc in Hl. apply not_last_snoc in Hl. apply not_last_snoc. exact Hl.
      * right. split; [|split; [|reflexivity]].
        -- intros [Hi|(x & r & Hx & Hi)]; [apply trim_blank in Hi; congruence|].
           assert (Ht : exists t', trim l = 35 :: t').
           { destruct (trim_split (35 :: r)) as (x2 & y & E2 & Hx2 & Hy & _ & Ht).
             assert (Hx0 : x2 = []).
             { destruct x2 as [|d x2]; [reflexivity|]. injection E2 as <- _. apply Forall_inv in Hx2. exfalso. apply nospace_35, Hx2. }
             subst x2. simpl in E2. set (t2 := trim (35 :: r)) in *. clearbody t2.
             destruct t2 as [|d t2]; [simpl in E2; subst y; apply Forall_inv in Hy; exfalso; apply nospace_35, Hy|].
             injection E2 as <- E2. exists t2. rewrite Hi, E2. change (x ++ 35 :: t2 ++ y) with (x ++ (35 :: t2) ++ y).
             apply trim_unique; auto. apply not_first_cons, nospace_35. }
           destruct Ht as [t' Ht]. congruence.
        -- intros u h He. apply entry_trim in He. destruct He as [He _]. rewrite <- Et in He.
           apply split_once_none in Es. apply Es. rewrite He. apply in_app_iff. right. left. reflexivity.
Qed.

(** ** Loading *)
Lemma load_lines_some ls : forall acc, (exists m, load_lines ls acc = Some m)
  <-> forall l, In l ls -> ignored l \/ exists u h, entry_line l u h.
Proof.
  induction ls as [|l ls IH]; intros acc.
  - split; [intros _ l []|eexists; reflexivity].
  - destruct (line_cases l) as [[Hi E]|[(u & h & He & E)|(Hi & He & E)]]; rewrite E.
    + rewrite IH. split; intros H k; [intros [<-|Hk]; auto|intros Hk; apply H; right; exact Hk].
    + rewrite IH. split; intros H k; [intros [<-|Hk]; eauto|intros Hk; apply H; right; exact Hk].
    + split; [intros [m Hm]; discriminate|]. intros H. destruct (H l ltac:(left; reflexivity)) as [|(u & h & Hl)]; [contradiction|].
      exfalso. exact (He u h Hl).
Qed.
Lemma load_lines_maps ls : forall acc m u h, load_lines ls acc = Some m ->
  (aget bytes_eqb u m = Some h <->
   file_maps ls u h \/ ((forall l h', In l ls -> ~ entry_line l u h') /\ aget bytes_eqb u acc = Some h)).
Proof.
  induction ls as [|l ls IH]; intros acc m u h H.
  - simpl in H. injection H as <-. split.
    + intros H. right. split; [intros l h' []|exact H].
    + intros [(a & l & b & E & _)|[_ H]]; [destruct a; discriminate|exact H].
  - assert (Hcons : forall u h, file_maps ls u h -> file_maps (l :: ls) u h).
    { intros u0 h0 (a & k & b & E & Hk). exists (l :: a), k, b. split; [simpl; congruence|exact Hk]. }
    assert (Hinv : forall u h, file_maps (l :: ls) u h -> file_maps ls u h \/ (entry_line l u h /\ forall l' h', In l' ls -> ~ entry_line l' u h')).
    { intros u0 h0 (a & k & b & E & Hk). destruct a as [|x a]; injection E as <- ->; [right; exact Hk|left; exists a, k, b; auto]. }
    destruct (line_cases l) as [[Hi E]|[(v & g & He & E)|(Hi & He & E)]]; rewrite E in H; [| |discriminate].
    + rewrite (IH _ _ _ _ H). split.
      * intros [Hm|[Hn Hg]]; [left; auto|]. right. split; [|exact Hg]. intros k h' [<-|Hk]; [apply ignored_not_entry, Hi|auto].
      * intros [Hm|[Hn Hg]].
        -- destruct (Hinv _ _ Hm) as [|[Hx _]]; [auto|]. exfalso. eapply ignored_not_entry; eauto.
        -- right. split; [|exact Hg]. intros k h' Hk. apply Hn. right. exact Hk.
    + rewrite (IH _ _ _ _ H). rewrite (aget_aput _ beqb_spec). destruct (bytes_eqb u v) eqn:Ev.
      * apply beqb_spec in Ev. subst v. split.
        -- intros [Hm|[Hn Hg]]; [left; auto|]. injection Hg as <-. left. exists [], l, ls. auto.
        -- intros [Hm|[Hn Hg]].
           ++ destruct (Hinv _ _ Hm) as [|[Hx Hn]]; [auto|]. right. split; [exact Hn|].
              destruct (entry_unique _ _ _ _ _ He Hx) as [_ ->]. reflexivity.
           ++ exfalso. eapply Hn; [left; reflexivity|exact He].
      * assert (Huv : u <> v) by (intros ->; rewrite (aeqb_refl _ beqb_spec) in Ev; discriminate). split.
        -- intros [Hm|[Hn Hg]]; [left; auto|]. right. split; [|exact Hg]. intros k h' [<-|Hk]; [|auto].
           intros Hx. destruct (entry_unique _ _ _ _ _ He Hx). congruence.
        -- intros [Hm|[Hn Hg]].
           ++ destruct (Hinv _ _ Hm) as [|[Hx _]]; [auto|]. destruct (entry_unique _ _ _ _ _ He Hx). congruence.
           ++ right. split; [|exact Hg]. intros k h' Hk. apply Hn. right. exact Hk.
Qed.
Lemma load_lines_nodup ls : forall acc m, load_lines ls acc = Some m -> NoDup (akeys acc) -> NoDup (akeys m).
Proof.
  induction ls as [|l ls IH]; intros acc m H Hn; [injection H as <-; exact Hn|].
  destruct (line_cases l) as [[Hi E]|[(v & g & He & E)|(Hi & He & E)]]; rewrite E in H; [eauto| |discriminate].
  eapply IH; [exact H|]. apply nodup_aput; [apply beqb_spec|exact Hn].
Qed.

(** ** Writing *)
Definition entry_ok (e : list N * list N) : Prop := plain_name (fst e) /\ hash_text (snd e).
Lemma entry_ok_line u h : entry_ok (u, h) -> entry_line (u ++ 58 :: h) u h /\ ~ In 10 (u ++ 58 :: h).
Proof.
  intros [(H1 & H2 & H3 & H4) [H5 H6]]. cbn [fst snd] in *. split.
  - exists [], []. rewrite app_nil_r. repeat split; auto; constructor.
  - intros Hi. apply in_app_iff in Hi. destruct Hi as [Hi|[Hi|Hi]]; [auto|discriminate|auto].
Qed.
Definition header1 : list N := str "# Mercurio password file"%string.
Definition header2 : list N := str "# Managed by `mercuriod passwd`. Do not edit manually."%string.
Lemma lines_written es : Forall entry_ok es -> forall rest,
  lines (password_file_text es ++ rest) = header1 :: header2 :: map (fun e => fst e ++ 58 :: snd e) es ++ lines rest.
Proof.
  intros H rest. unfold password_file_text, header.
  rewrite <- !app_assoc. cbn [app]. rewrite <- !app_assoc. cbn [app].
  fold header1 header2. rewrite lines_cat by (vm_compute; intuition discriminate).
  rewrite lines_cat by (vm_compute; intuition discriminate). f_equal. f_equal.
  induction H as [|[u h] es He _ IH]; [reflexivity|]. cbn [flat_map map fst snd app]. unfold entry_text at 1. cbn [fst snd].
  rewrite <- IH. replace ((u ++ 58 :: h ++ [10]) ++ flat_map entry_text es) with ((u ++ 58 :: h) ++ 10 :: flat_map entry_text es).
  - rewrite <- app_assoc. cbn [app]. rewrite lines_cat by (apply entry_ok_line, He). reflexivity.
  - rewrite <- !app_assoc. cbn [app]. rewrite <- !app_assoc. reflexivity.
Qed.
Lemma comment_header1 : ignored header1.
Proof. right. exists [], (skipn 1 header1). split; [constructor|reflexivity]. Qed.
Lemma comment_header2 : ignored header2.
Proof. right. exists [], (skipn 1 header2). split; [constructor|reflexivity]. Qed.
(** The written file followed by more text loads as the entries and the rest. *)
Lemma load_written es rest : Forall entry_ok es ->
  load_password_file (Some (password_file_text es ++ rest))
  = load_lines (lines rest) (fold_left (fun m e => aput bytes_eqb (fst e) (snd e) m) es []).
Proof.
  intros H. unfold load_password_file. rewrite lines_written by exact H.
  assert (Hskip : forall l ls acc, ignored l -> load_lines (l :: ls) acc = load_lines ls acc).
  { intros l ls acc Hi. destruct (line_cases l) as [[_ E]|[(u & h & He & E)|(Hn & _ & E)]]; [apply E| |contradiction].
    exfalso. exact (ignored_not_entry _ _ _ Hi He). }
  rewrite Hskip by apply comment_header1. rewrite Hskip by apply comment_header2.
  generalize (@nil (list N * list N)). induction H as [|[u h] es He _ IH]; intros acc; [reflexivity|].
  cbn [map app fold_left fst snd]. rewrite <- IH. destruct (entry_ok_line u h He) as [Hl _].
  destruct (line_cases (u ++ 58 :: h)) as [[Hi _]|[(u' & h' & He' & E)|(_ & Hn & _)]].
  - exfalso. exact (ignored_not_entry _ _ _ Hi Hl).
  - destruct (entry_unique _ _ _ _ _ Hl He') as [-> ->]. apply E.
  - exfalso. exact (Hn u h Hl).
Qed.
Lemma fold_aput_app (es : list (list N * list N)) : forall acc, NoDup (akeys (acc ++ es)) ->
  fold_left (fun m e => aput bytes_eqb (fst e) (snd e) m) es acc = acc ++ es.
Proof.
  induction es as [|[u h] es IH]; intros acc H; [symmetry; apply app_nil_r|]. cbn [fold_left fst snd].
  rewrite (akeys_aput_new _ beqb_spec).
  - rewrite IH; rewrite <- app_assoc; [reflexivity|exact H].
  - unfold akeys in *. rewrite map_app in H. cbn [map fst] in H. apply NoDup_remove_2 in H. intros Hi. apply H, in_app_iff. auto.
Qed.
Lemma load_write es : Forall entry_ok es -> NoDup (akeys es) ->
  load_password_file (Some (password_file_text es)) = Some es.
Proof.
  intros H Hn. rewrite <- (app_nil_r (password_file_text es)), load_written by exact H. simpl lines. simpl load_lines.
  rewrite fold_aput_app by exact Hn. reflexivity.
Qed.

(** What a file can hold. *)
Lemma loaded_ok f m : load_password_file f = Some m -> Forall entry_ok m /\ NoDup (akeys m).
Proof.
  intros H. destruct f as [t|]; [|discriminate]. unfold load_password_file in H.
  assert (Hn : NoDup (akeys m)) by (eapply load_lines_nodup; [exact H|constructor]). split; [|exact Hn].
  apply Forall_forall. intros [u h] Hi. apply (in_aget _ beqb_spec) in Hi; [|exact Hn].
  apply (load_lines_maps _ _ _ _ _ H) in Hi. destruct Hi as [(a & l & b & E & He & _)|[_ Hg]]; [|discriminate].
  assert (Hl : ~ In 10 l).
  { eapply text_lines_no_lf; [apply text_lines_lines; exact E|]. apply in_app_iff. right. left. reflexivity. }
  destruct He as (x & y & -> & Hx & Hy & Hc & Hf & H35 & Hla).
  split; cbn [fst snd]; [split; [exact Hc|split; [|split; [exact Hf|exact H35]]]|split; [|exact Hla]];
    intros Hi; apply Hl; rewrite ?in_app_iff; cbn [In]; rewrite ?in_app_iff; auto.
Qed.
Lemma entries_ok f : Forall entry_ok (load_password_file_entries f) /\ NoDup (akeys (load_password_file_entries f)).
Proof.
  unfold load_password_file_entries. destruct (load_password_file f) as [m|] eqn:E; [exact (loaded_ok _ _ E)|].
  split; constructor.
Qed.
Lemma aget_perm (es es' : list (list N * list N)) u : Permutation es es' -> NoDup (akeys es) -> aget bytes_eqb u es' = aget bytes_eqb u es.
Proof.
  intros Hp Hn. assert (Hn' : NoDup (akeys es')) by (eapply Permutation_NoDup; [apply Permutation_map, Hp|exact Hn]).
  destruct (aget bytes_eqb u es) as [h|] eqn:E.
  - apply (in_aget _ beqb_spec); [exact Hn'|]. eapply Permutation_in; [exact Hp|]. apply (aget_in _ beqb_spec), E.
  - apply (aget_none _ beqb_spec). apply (aget_none _ beqb_spec) in E. intros Hi. apply E.
    eapply Permutation_in; [apply Permutation_sym, Permutation_map, Hp|exact Hi].
Qed.
Lemma aput_ok u h m : entry_ok (u, h) -> Forall entry_ok m -> Forall entry_ok (aput bytes_eqb u h m).
Proof.
  intros He H. induction H as [|[k v] m Hk Hm IH]; simpl; [constructor; [exact He|constructor]|].
  destruct (bytes_eqb u k) eqn:E; [|constructor; auto]. apply beqb_spec in E. subst k. constructor; auto.
Qed.
Lemma adel_ok u m : Forall entry_ok m -> Forall entry_ok (adel bytes_eqb u m).
Proof. intros H. apply Forall_forall. intros e He. apply filter_In in He. rewrite Forall_forall in H. apply H, He. Qed.

(** ** Bytes *)
Lemma encode1_prefix c d r s : scalar c -> scalar d -> utf8_encode1 c ++ r = utf8_encode1 d ++ s -> c = d /\ r = s.
Proof.
  unfold scalar, utf8_encode1. intros Hc Hd H.
  destruct (c <? 128) eqn:C1, (d <? 128) eqn:D1; try destruct (c <? 2048) eqn:C2; try destruct (d <? 2048) eqn:D2;
    try destruct (c <? 65536) eqn:C3; try destruct (d <? 65536) eqn:D3; cbn [app] in H; injection H; intros;
    try lia; split; try assumption; lia.
Qed.
Lemma encode1_nonempty c : utf8_encode1 c <> [].
Proof. unfold utf8_encode1. repeat match goal with |- context [if ?x then _ else _] => destruct x end; discriminate. Qed.
Lemma encode_inj u v : Forall scalar u -> Forall scalar v -> encode u = encode v -> u = v.
Proof.
  intros Hu. revert v. induction Hu as [|c u Hc _ IH]; intros v Hv H; destruct Hv as [|d v Hd Hv].
  - reflexivity.
  - exfalso. unfold encode in H. simpl in H. symmetry in H. apply app_eq_nil in H. destruct H as [H _]. exact (encode1_nonempty d H).
  - exfalso. unfold encode in H. simpl in H. apply app_eq_nil in H. destruct H as [H _]. exact (encode1_nonempty c H).
  - unfold encode in H. simpl in H. apply encode1_prefix in H; auto. destruct H as [-> H]. f_equal. apply IH; auto.
Qed.
Lemma encode_utf8 u : Forall scalar u -> utf8 (encode u).
Proof. intros H. exists u. auto. Qed.
Definition scalar_entry (e : list N * list N) : Prop := Forall scalar (fst e) /\ Forall scalar (snd e).
Lemma aget_stored m u : Forall scalar_entry m -> Forall scalar u ->
  aget bytes_eqb (encode u) (stored_credentials m) = match aget bytes_eqb u m with Some h => Some (encode h) | None => None end.
Proof.
  intros Hm Hu. induction Hm as [|[k v] m [Hk _] _ IH]; [reflexivity|]. cbn [stored_credentials map aget fst snd].
  destruct (bytes_eqb u k) eqn:E.
  - apply beqb_spec in E. subst k. rewrite (aeqb_refl _ beqb_spec). reflexivity.
  - destruct (bytes_eqb (encode u) (encode k)) eqn:E2; [|exact IH]. apply beqb_spec in E2.
    apply encode_inj in E2; auto. subst k. rewrite (aeqb_refl _ beqb_spec) in E. discriminate.
Qed.
Lemma aget_stored_inv m x y : Forall scalar_entry m -> aget bytes_eqb x (stored_credentials m) = Some y ->
  exists u h, x = encode u /\ y = encode h /\ aget bytes_eqb u m = Some h /\ Forall scalar u /\ Forall scalar h.
Proof.
  intros Hm H. assert (Hi := aget_in _ beqb_spec _ _ _ H). unfold stored_credentials in Hi. apply in_map_iff in Hi.
  destruct Hi as ([u h0] & E & Hi). injection E as <- _. rewrite Forall_forall in Hm. destruct (Hm _ Hi) as [Hu _]. cbn [fst snd] in *.
  rewrite aget_stored in H by (auto; apply Forall_forall, Hm). destruct (aget bytes_eqb u m) as [h|] eqn:E; [|discriminate].
  injection H as <-. exists u, h. repeat split; auto. apply (aget_in _ beqb_spec) in E. apply Hm in E. apply E.
Qed.
Lemma text_lines_incl t ls l : text_lines t ls -> In l ls -> incl l t.
Proof.
  induction 1 as [|k Hk Hn|k s ls Hn _ IH]; intros Hi; [destruct Hi| |].
  - destruct Hi as [<-|[]]. apply incl_refl.
  - destruct Hi as [<-|Hi]; [apply incl_appl, incl_refl|]. apply incl_appr, incl_tl, IH, Hi.
Qed.
Lemma loaded_scalar t m : Forall scalar t -> load_password_file (Some t) = Some m -> Forall scalar_entry m.
Proof.
  intros Ht H. destruct (loaded_ok _ _ H) as [_ Hn]. unfold load_password_file in H. apply Forall_forall. intros [u h] Hi.
  apply (in_aget _ beqb_spec) in Hi; [|exact Hn]. apply (load_lines_maps _ _ _ _ _ H) in Hi.
  destruct Hi as [(a & l & b & E & He & _)|[_ Hg]]; [|discriminate].
  assert (Hl : incl l t). { eapply text_lines_incl; [apply text_lines_lines; exact E|]. apply in_app_iff. right. left. reflexivity. }
  destruct He as (x & y & -> & _). rewrite Forall_forall in Ht.
  split; cbn [fst snd]; apply Forall_forall; intros c Hc; apply Ht, Hl; rewrite ?in_app_iff; cbn [In]; rewrite ?in_app_iff; auto.
Qed.

(** ** Interrupted writes *)
Lemma load_header_prefix n : load_password_file (Some (firstn n header)) = Some [].
Proof. do 81 (destruct n as [|n]; [vm_compute; reflexivity|]). vm_compute. reflexivity. Qed.
(** A prefix of the entries: some whole entries, then a prefix of one. *)
Lemma prefix_entries es : forall p q, flat_map entry_text es = p ++ q ->
  exists es1 r, p = flat_map entry_text es1 ++ r /\
    ((es = es1 /\ r = []) \/ exists e es2 r', es = es1 ++ e :: es2 /\ entry_text e = r ++ r').
Proof.
  induction es as [|e es IH]; intros p q H.
  - simpl in H. symmetry in H. apply app_eq_nil in H. destruct H as [-> _]. exists [], []. auto.
  - cbn [flat_map] in H. assert (Hl : (length p <= length (entry_text e) \/ length (entry_text e) < length p)%nat) by lia.
    destruct Hl as [Hl|Hl].
    + exists [], p. split; [reflexivity|]. right. exists e, es, (skipn (length p) (entry_text e)). split; [reflexivity|].
      rewrite <- (firstn_skipn (length p) (entry_text e)) at 1. f_equal.
      assert (E : firstn (length p) (entry_text e ++ flat_map entry_text es) = firstn (length p) (p ++ q)) by congruence.
      rewrite !firstn_app in E. replace (length p - length (entry_text e))%nat with 0%nat in E by lia.
      replace (length p - length p)%nat with 0%nat in E by lia. simpl in E. rewrite !app_nil_r, firstn_all in E. exact E.
    + assert (E : exists p', p = entry_text e ++ p').
      { exists (skipn (length (entry_text e)) p). rewrite <- (firstn_skipn (length (entry_text e)) p) at 1. f_equal.
        assert (E : firstn (length (entry_text e)) (entry_text e ++ flat_map entry_text es) = firstn (length (entry_text e)) (p ++ q)) by congruence.
        rewrite !firstn_app in E. replace (length (entry_text e) - length p)%nat with 0%nat in E by lia.
        rewrite Nat.sub_diag in E. simpl in E. rewrite !app_nil_r, firstn_all in E. auto. }
      destruct E as [p' ->]. rewrite <- app_assoc in H. apply app_inv_head in H. destruct (IH _ _ H) as (es1 & r & -> & Hr).
      exists (e :: es1), r. split; [cbn [flat_map]; apply app_assoc|]. destruct Hr as [[-> ->]|(e2 & es2 & r' & -> & Hr)]; [auto|].
      right. exists e2, es2, r'. auto.
Qed.
Lemma prefix_snoc {A} (x : A) l : forall r r', l ++ [x] = r ++ r' -> (r = l ++ [x] /\ r' = []) \/ exists r2, l = r ++ r2.
Proof.
  intros r r' H. destruct r' as [|y r'] using rev_ind; [left; rewrite app_nil_r in H; auto|].
  right. rewrite app_assoc in H. apply app_inj_tail in H. exists r'. apply H.
Qed.
Lemma prefix_loads es p q m v h' : Forall entry_ok es -> NoDup (akeys es) -> password_file_text es = p ++ q ->
  load_password_file (Some p) = Some m -> aget bytes_eqb v m = Some h' ->
  exists h r, aget bytes_eqb v es = Some h /\ h = h' ++ r.
Proof.
  intros Hok Hnd Ht Hm Hv. unfold password_file_text in Ht.
  assert (Hl : (length p <= length header \/ length header < length p)%nat) by lia. destruct Hl as [Hl|Hl].
  { assert (E : p = firstn (length p) header).
    { assert (E : firstn (length p) (header ++ flat_map entry_text es) = firstn (length p) (p ++ q)) by congruence.
      rewrite !firstn_app in E. replace (length p - length header)%nat with 0%nat in E by lia. rewrite Nat.sub_diag in E.
      cbn [firstn] in E. rewrite !app_nil_r in E. rewrite firstn_all in E. symmetry. exact E. }
    rewrite E, load_header_prefix in Hm. injection Hm as <-. discriminate. }
  assert (E : exists p', p = header ++ p').
  { exists (skipn (length header) p). rewrite <- (firstn_skipn (length header) p) at 1. f_equal.
    assert (E : firstn (length header) (header ++ flat_map entry_text es) = firstn (length header) (p ++ q)) by congruence.
    rewrite !firstn_app in E. replace (length header - length p)%nat with 0%nat in E by lia.
    rewrite Nat.sub_diag in E. cbn [firstn] in E. rewrite !app_nil_r, firstn_all in E. symmetry. exact E. }
  destruct E as [p' ->]. rewrite <- app_assoc in Ht. apply app_inv_head in Ht.
  destruct (prefix_entries _ _ _ Ht) as (es1 & r & -> & Hr). rewrite app_assoc in Hm.
  change (header ++ flat_map entry_text es1) with (password_file_text es1) in Hm.
  assert (Hsub : exists rest, es = es1 ++ rest) by (destruct Hr as [[-> _]|(e & es2 & r' & -> & _)]; [exists []; symmetry; apply app_nil_r|eauto]).
  destruct Hsub as [rest Hsub].
  assert (Hok1 : Forall entry_ok es1) by (rewrite Hsub in Hok; apply Forall_app in Hok; apply Hok).
  assert (Hnd1 : NoDup (akeys es1)).
  { rewrite Hsub in Hnd. unfold akeys in *. rewrite map_app in Hnd. clear -Hnd. induction (map fst es1); [constructor|].
    inversion Hnd as [|? ? Hn Hd]; subst. constructor; [intros Hi; apply Hn, in_app_iff; auto|auto]. }
  rewrite load_written, fold_aput_app in Hm by assumption. cbn [app] in Hm.
  apply (load_lines_maps _ _ _ _ _ Hm) in Hv. destruct Hv as [Hv|[_ Hv]].
  2:{ exists h', []. split; [|symmetry; apply app_nil_r]. apply (in_aget _ beqb_spec); [exact Hnd|].
      rewrite Hsub. apply in_app_iff. left. apply (aget_in _ beqb_spec), Hv. }
  destruct Hr as [[-> ->]|([u hh] & es2 & r' & Hes & Hr)]; [destruct Hv as (a & l & b & E & _); destruct a; discriminate|].
  assert (He : entry_ok (u, hh)). { rewrite Forall_forall in Hok. apply Hok. rewrite Hes. apply in_app_iff. right. left. reflexivity. }
  destruct (entry_ok_line _ _ He) as [_ Hlf].
  assert (Hline : exists l r2, file_maps [l] v h' /\ u ++ 58 :: hh = l ++ r2).
  { unfold entry_text in Hr. cbn [fst snd] in Hr. rewrite app_comm_cons, app_assoc in Hr. apply prefix_snoc in Hr.
    destruct Hr as [[-> _]|[r2 Hr]].
    - exists (u ++ 58 :: hh), []. rewrite app_nil_r. split; [|reflexivity].
      replace ((u ++ 58 :: hh) ++ [10]) with ((u ++ 58 :: hh) ++ 10 :: []) in Hv by reflexivity. rewrite lines_cat in Hv by exact Hlf. exact Hv.
    - exists r, r2. split; [|exact Hr]. rewrite lines_last in Hv; [exact Hv| |].
      + intros ->. destruct Hv as (a & l & b & E & _). destruct a; discriminate.
      + intros Hi. apply Hlf. rewrite Hr. apply in_app_iff. auto. }
  destruct Hline as (l & r2 & (a & l' & b & E & Hentry & _) & Hu).
  assert (l' = l). { destruct a as [|x a]; [injection E as <- _; reflexivity|]. destruct a; discriminate. } subst l'.
  destruct Hentry as (x & y & -> & Hx & Hy & Hc & Hf & _ & _). destruct He as [(Hc1 & _ & Hf1 & _) _]. cbn [fst snd] in *.
  assert (Hx0 : x = []).
  { destruct x as [|c x]; [reflexivity|]. apply Forall_inv in Hx. exfalso. destruct u as [|d u]; injection Hu as <- _.
    - apply nospace_58, Hx.
    - apply not_first_cons in Hf1. contradiction. }
  subst x. cbn [app] in Hu. rewrite <- app_assoc in Hu. cbn [app] in Hu. rewrite <- app_assoc in Hu.
  assert (Hs : Some (u, hh) = Some (v, h' ++ y ++ r2)).
  { rewrite <- (proj2 (split_once_some 58 (u ++ 58 :: hh) u hh) (conj eq_refl Hc1)). apply split_once_some. auto. }
  injection Hs as -> ->. exists (h' ++ y ++ r2), (y ++ r2). split; [|reflexivity].
  apply (in_aget _ beqb_spec); [exact Hnd|]. rewrite Hes. apply in_app_iff. right. left. reflexivity.
Qed.
