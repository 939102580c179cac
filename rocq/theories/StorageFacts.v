(** Both stores refine the four-map specification. *)
From Coq Require Import Permutation.
From Verif Require Import Base Codec Tac Maps CodecFacts SpecTopic Topic TopicFacts TreeFacts
  Storage SpecStorage.

Lemma neqb_spec (a b : N) : N.eqb a b = true <-> a = b.
Proof. apply N.eqb_eq. Qed.
Lemma key2_spec (a b : bytes * N) : key2_eqb a b = true <-> a = b.
Proof.
  destruct a as [a1 a2], b as [b1 b2]. unfold key2_eqb. simpl.
  rewrite andb_true_iff, beqb_spec, N.eqb_eq. split; [intros [-> ->] | intros H; injection H]; auto.
Qed.

Lemma beqb_dec (a b : bytes) {A} (x y : A) :
  (if bytes_eqb a b then x else y) = (if bytes_dec a b then x else y).
Proof.
  destruct (bytes_dec a b) as [->|H]; [rewrite bytes_eqb_refl; reflexivity|].
  destruct (bytes_eqb a b) eqn:E; auto. apply beqb_spec in E. contradiction.
Qed.
Lemma neqb_dec (a b : N) {A} (x y : A) :
  (if N.eqb a b then x else y) = (if N.eq_dec a b then x else y).
Proof.
  destruct (N.eq_dec a b) as [->|H]; [rewrite N.eqb_refl; reflexivity|].
  destruct (N.eqb a b) eqn:E; auto. apply N.eqb_eq in E. contradiction.
Qed.

(** ** Matching *)
Lemma tmf_iff fp : ok_levels fp -> forall tp, tmf_loop fp tp = true <-> level_match fp tp.
Proof.
  induction fp as [|f fp IH]; intros Hok tp; simpl.
  - destruct tp; split; intros H; try discriminate; [constructor | reflexivity | inversion H].
  - destruct Hok as (Hp & Hh & Hok). specialize (IH Hok).
    destruct (bytes_eqb f str_hash) eqn:E1.
    + apply beqb_spec in E1. subst f. destruct Hh as [_ ->]; [left; reflexivity|].
      split; [intros _; apply lm_hash | reflexivity].
    + assert (f <> str_hash) by (intros ->; rewrite bytes_eqb_refl in E1; discriminate).
      destruct tp as [|t tp].
      * split; [discriminate|]. intros Hm. inversion Hm; subst. contradiction.
      * destruct (bytes_eqb f str_plus) eqn:E2; simpl.
        -- apply beqb_spec in E2. subst f. rewrite IH. split; [apply lm_plus|].
           intros Hm. inversion Hm; subst; auto.
        -- assert (f <> str_plus) by (intros ->; rewrite bytes_eqb_refl in E2; discriminate).
           destruct (bytes_eqb f t) eqn:E3; simpl.
           ++ apply beqb_spec in E3. subst t. rewrite IH. split; [apply lm_same|].
              intros Hm. inversion Hm; subst; auto; contradiction.
           ++ split; [discriminate|]. intros Hm. inversion Hm; subst; try contradiction.
              rewrite bytes_eqb_refl in E3. discriminate.
Qed.

Lemma topic_matches_filter_iff f t : ok_levels (levels f) ->
  (topic_matches_filter t (levels f) = true <-> matches f t).
Proof. intros H. unfold topic_matches_filter. rewrite matches_iff. apply tmf_iff. exact H. Qed.

(** ** Listing an association list *)
Lemma lists_filter {K V W} (eqb : K -> K -> bool) (Heqb : forall a b, eqb a b = true <-> a = b)
    (P : K -> Prop) (pb : K * V -> bool) (f : K -> option V) (g : K -> V -> W) m :
  NoDup (akeys m) -> (forall k, f k = aget eqb k m) ->
  (forall k v, In (k, v) m -> (pb (k, v) = true <-> P k)) ->
  lists P f g (map (fun kv => g (fst kv) (snd kv)) (filter pb m)).
Proof.
  intros Hnd Hf Hp. exists (akeys (filter pb m)). split; [|split].
  - clear Hf Hp. induction m as [|[k v] m IH]; simpl; [constructor|].
    inversion Hnd as [|? ? Hn Hnd']; subst. destruct (pb (k, v)); simpl; auto. constructor; auto.
    intros Hi. apply Hn. apply in_map_iff in Hi. destruct Hi as ([k' v'] & Ek & Hi). simpl in Ek. subst.
    apply filter_In in Hi. destruct Hi as [Hi _]. apply (in_map fst) in Hi. exact Hi.
  - intros k. unfold akeys. rewrite in_map_iff. split.
    + intros ([k' v] & Ek & Hi). simpl in Ek. subst. apply filter_In in Hi. destruct Hi as [Hi Hb].
      split; [apply (Hp k v Hi); exact Hb|]. rewrite Hf.
      rewrite (in_aget eqb Heqb k v m Hnd Hi). discriminate.
    + intros [HP Hs]. rewrite Hf in Hs. destruct (aget eqb k m) as [v|] eqn:E; [|contradiction].
      apply (aget_in eqb Heqb) in E. exists (k, v). split; auto. apply filter_In. split; auto.
      apply (Hp k v E). exact HP.
  - assert (Hin : forall kv, In kv (filter pb m) -> f (fst kv) = Some (snd kv)).
    { intros [k v] Hi. apply filter_In in Hi. simpl. rewrite Hf. apply in_aget; auto. apply Hi. }
    revert Hin. generalize (filter pb m). induction l as [|[k v] l IH]; intros Hin; simpl; constructor.
    + exists v. split; auto. apply (Hin (k, v)). left; auto.
    + apply IH. intros kv H. apply Hin. right; auto.
Qed.

Lemma lists_all {K V W} (eqb : K -> K -> bool) (Heqb : forall a b, eqb a b = true <-> a = b)
    (f : K -> option V) (g : K -> V -> W) m :
  NoDup (akeys m) -> (forall k, f k = aget eqb k m) ->
  lists (fun _ => True) f g (map (fun kv => g (fst kv) (snd kv)) m).
Proof.
  intros Hnd Hf.
  assert (E' : forall l : list (K * V), filter (fun _ => true) l = l)
    by (induction l; simpl; congruence).
  rewrite <- (E' m). apply (lists_filter eqb Heqb (fun _ => True) (fun _ => true) f g m); auto.
  tauto.
Qed.

Lemma lists_unique {K V W} (P : K -> Prop) (f : K -> option V) (g : K -> V -> W) a b :
  lists P f g a -> lists P f g b -> Permutation a b.
Proof.
  intros (ks & Hn & Hk & Hf) (ks' & Hn' & Hk' & Hf').
  assert (Hp : Permutation ks ks').
  { apply NoDup_Permutation; auto. intros k. rewrite Hk, Hk'. tauto. }
  clear Hk Hk' Hn Hn'. revert a b Hf Hf'. induction Hp; intros a b Hf Hf'.
  - inversion Hf; inversion Hf'; subst. constructor.
  - inversion Hf as [|? w ? ws (v & E & ->) Hr]; inversion Hf' as [|? w' ? ws' (v' & E' & ->) Hr']; subst.
    replace v' with v by congruence. constructor. apply IHHp; auto.
  - inversion Hf as [|? w ? ws (v & E & ->) Hr]; subst.
    inversion Hr as [|? w2 ? ws2 (v2 & E2 & ->) Hr2]; subst.
    inversion Hf' as [|? w' ? ws' (v' & E' & ->) Hr']; subst.
    inversion Hr' as [|? w2' ? ws2' (v2' & E2' & ->) Hr2']; subst.
    replace v2' with v by congruence. replace v' with v2 by congruence.
    assert (ws2 = ws2').
    { clear - Hr2 Hr2'. revert ws2' Hr2'. induction Hr2 as [|k w ks ws (v & E & ->) Hr IH]; intros ws' H'.
      - inversion H'; auto.
      - inversion H' as [|? w' ? ws'' (v' & E' & ->) Hr']; subst. replace v' with v by congruence.
        f_equal. auto. }
    subst. apply perm_swap.
  - assert (Hex : exists c, Forall2 (fun k w => exists v, f k = Some v /\ w = g k v) l' c).
    { clear - Hf Hp1. assert (Hall : forall k, In k l -> f k <> None).
      { clear Hp1. intros k Hk. induction Hf as [|k' w ks ws (v & E & ->) Hr IH]; [contradiction|].
        destruct Hk as [->|Hk]; auto. congruence. }
      assert (Hall' : forall k, In k l' -> f k <> None).
      { intros k Hk. apply Hall. apply Permutation_sym in Hp1. apply (Permutation_in k Hp1 Hk). }
      clear - Hall'. induction l' as [|k l' IH]; [exists []; constructor|].
      destruct (f k) as [v|] eqn:E; [|exfalso; apply (Hall' k); [left|]; auto].
      destruct IH as [c Hc]; [intros k' Hk'; apply Hall'; right; auto|].
      exists (g k v :: c). constructor; eauto. }
    destruct Hex as [c Hc]. transitivity c; auto.
Qed.

(** ** The in-memory store *)
Record R_mem (s : maps) (m : mem_store) : Prop := {
  rm_sess : forall c, mp_session s c = aget bytes_eqb c (ms_sessions m);
  rm_sess_nd : NoDup (akeys (ms_sessions m));
  rm_ret : forall t, mp_retained s t = aget bytes_eqb t (ms_retained m);
  rm_ret_nd : NoDup (akeys (ms_retained m));
  rm_will : forall c, mp_will s c = aget bytes_eqb c (ms_wills m);
  rm_inf : forall c p, mp_inflight s c p = aget N.eqb p (inflight_of c m);
  rm_inf_nd : forall c, NoDup (akeys (inflight_of c m))
}.

Lemma R_mem_new : R_mem no_maps mem_new.
Proof. constructor; intros; try reflexivity; constructor. Qed.

Lemma inflight_of_aput c c' l se re wi fl :
  inflight_of c (Mk_mem_store se re wi (aput bytes_eqb c' l fl))
  = if bytes_dec c c' then l else inflight_of c (Mk_mem_store se re wi fl).
Proof.
  unfold inflight_of. simpl. rewrite aget_aput by apply beqb_spec.
  rewrite beqb_dec. destruct (bytes_dec c c'); reflexivity.
Qed.

(** Operations whose filters are valid. *)
Definition op_valid (o : sop) : Prop :=
  match o with GetRetained f => ok_levels (levels f) | _ => True end.

Lemma mem_step_ok s m o r m' : R_mem s m -> op_valid o -> mem_step m o = (r, m') ->
  spec_result s o r /\ R_mem (spec_step s o) m'.
Proof.
  intros HR Hv H. pose proof HR as HR0.
  destruct HR as [Hs Hsn Hr Hrn Hw Hi Hin]. destruct s as [se re wi fl]. simpl in *.
  destruct o; simpl in H; injection H as <- <-; simpl; (split; [try exact I; try (symmetry; auto; fail)|]);
    try exact HR0.
  - constructor; simpl; auto.
    + intros c. rewrite aget_aput, beqb_dec by apply beqb_spec. unfold upd.
      destruct (bytes_dec c client); auto.
    + apply nodup_aput; auto. apply beqb_spec.
  - symmetry. apply Hs.
  - constructor; simpl; auto.
    + intros c. rewrite aget_adel, beqb_dec by apply beqb_spec. unfold upd.
      destruct (bytes_dec c client); auto.
    + apply nodup_adel; auto. apply beqb_spec.
  - unfold mem_list_sessions, akeys.
    apply (lists_all bytes_eqb beqb_spec se (fun c _ => c) (ms_sessions m)); auto.
  - constructor; simpl; auto.
    + intros t. unfold upd. destruct m0 as [g|].
      * rewrite aget_aput, beqb_dec by apply beqb_spec. destruct (bytes_dec t topic); auto.
      * rewrite aget_adel, beqb_dec by apply beqb_spec. destruct (bytes_dec t topic); auto.
    + destruct m0; [apply nodup_aput | apply nodup_adel]; auto; apply beqb_spec.
  - unfold mem_get_retained.
    apply (lists_filter bytes_eqb beqb_spec (fun t => matches filter t)
             (fun tm => topic_matches_filter (fst tm) (levels filter)) re
             (fun _ m => with_retain true m) (ms_retained m)); auto.
    intros t v _. apply topic_matches_filter_iff. exact Hv.
  - constructor; simpl; auto. constructor.
  - constructor; simpl; auto.
    intros c. rewrite aget_aput, beqb_dec by apply beqb_spec. unfold upd.
    destruct (bytes_dec c client); auto.
  - symmetry. apply Hw.
  - constructor; simpl; auto.
    intros c. rewrite aget_adel, beqb_dec by apply beqb_spec. unfold upd.
    destruct (bytes_dec c client); auto.
  - unfold mem_store_inflight. destruct m as [mse mre mwi mfl].
    constructor; simpl in *; auto; intros c; [intros p|]; rewrite inflight_of_aput; unfold upd.
    + destruct (bytes_dec c client) as [->|]; auto.
      rewrite aget_aput, neqb_dec by apply neqb_spec. unfold updn.
      destruct (N.eq_dec p pid); auto.
    + destruct (bytes_dec c client) as [->|]; auto. apply nodup_aput; auto. apply neqb_spec.
  - unfold mem_get_inflight. rewrite Hi. unfold inflight_of. destruct (aget bytes_eqb client (ms_inflight m)); reflexivity.
  - unfold mem_remove_inflight. destruct m as [mse mre mwi mfl]. simpl in *.
    destruct (aget bytes_eqb client mfl) as [l|] eqn:E.
    + constructor; simpl in *; auto; intros c; [intros p|]; rewrite inflight_of_aput; unfold upd.
      * destruct (bytes_dec c client) as [->|]; auto.
        rewrite aget_adel, neqb_dec by apply neqb_spec. unfold updn.
        destruct (N.eq_dec p pid); auto. rewrite Hi. unfold inflight_of. simpl. rewrite E. reflexivity.
      * destruct (bytes_dec c client) as [->|]; auto. apply nodup_adel; [apply neqb_spec|].
        specialize (Hin client). unfold inflight_of in Hin. simpl in Hin. rewrite E in Hin. exact Hin.
    + constructor; simpl in *; auto. intros c p. unfold upd.
      destruct (bytes_dec c client) as [->|]; auto. unfold updn.
      destruct (N.eq_dec p pid); auto. unfold inflight_of. simpl. rewrite E. reflexivity.
  - unfold mem_get_all_inflight.
    assert (E : (match aget bytes_eqb client (ms_inflight m) with Some l => avals l | None => [] end)
                = map (fun kv => snd kv) (inflight_of client m)).
    { unfold inflight_of. destruct (aget bytes_eqb client (ms_inflight m)); reflexivity. }
    rewrite E. apply (lists_all N.eqb neqb_spec (fl client) (fun _ i => i)); auto.
Qed.

Lemma mem_run_ok os : forall s m rs m', R_mem s m -> Forall op_valid os ->
  store_run mem_step os m = (rs, m') -> spec_run s os rs.
Proof.
  induction os as [|o os IH]; intros s m rs m' HR Hv H; simpl in H.
  - injection H as <- <-. constructor.
  - destruct (mem_step m o) as [r m1] eqn:E1. destruct (store_run mem_step os m1) as [rs1 m2] eqn:E2.
    injection H as <- <-. inversion Hv; subst.
    destruct (mem_step_ok s m o r m1 HR) as [H1' H2']; auto. constructor; auto. eapply IH; eauto.
Qed.

(** ** The SQLite store *)

(** What a write becomes when its redundant fields are dropped and re-derived from
    the key: the identity for the calls the server makes, except that a retained
    message loses its packet identifier. *)
Definition sql_norm (o : sop) : sop :=
  match o with
  | SaveSession c st => SaveSession c (Mk_session_state c (ss_subscriptions st) (ss_clean_start st))
  | StoreRetained t (Some g) =>
      StoreRetained t (Some (Mk_message None t (mg_dup g) (mg_qos g) (mg_retain g) (mg_payload g)))
  | StoreInflight c p i =>
      StoreInflight c p (Mk_inflight p (if_topic i) (if_payload i) (if_qos i) (if_dup i))
  | _ => o
  end.

(** Subscription lists that survive joining with commas. *)
Definition subs_ok (l : list bytes) : Prop := l <> [[]] /\ Forall (fun s => ~ In 44 s) l.
Definition op_sql (o : sop) : Prop :=
  op_valid o /\ match o with SaveSession _ st => subs_ok (ss_subscriptions st) | _ => True end.

Lemma split_comma_no l : ~ In 44 l -> split c_comma l = [l].
Proof.
  induction l as [|c l IH]; simpl; intros H; auto.
  replace (c =? c_comma) with false by (unfold c_comma; symmetry; apply N.eqb_neq; intuition).
  rewrite IH by tauto. reflexivity.
Qed.
Lemma split_comma_app l s : ~ In 44 l -> split c_comma (l ++ 44 :: s) = l :: split c_comma s.
Proof.
  induction l as [|c l IH]; intros H.
  - reflexivity.
  - change ((c :: l) ++ 44 :: s) with (c :: (l ++ 44 :: s)). simpl split.
    replace (c =? c_comma) with false
      by (unfold c_comma; symmetry; apply N.eqb_neq; intros ->; apply H; left; auto).
    rewrite IH by (intros Hi; apply H; right; auto). reflexivity.
Qed.

Lemma split_join_comma l : subs_ok l -> split_subs (join_comma l) = l.
Proof.
  intros [Hne Hf]. destruct l as [|a l]; [reflexivity|].
  assert (Hs : split c_comma (join_comma (a :: l)) = a :: l).
  { clear Hne. revert a Hf. induction l as [|b l IH]; intros a Hf; inversion Hf; subst.
    - simpl. apply split_comma_no; auto.
    - change (join_comma (a :: b :: l)) with (a ++ c_comma :: join_comma (b :: l)).
      unfold c_comma at 2. rewrite split_comma_app by auto. f_equal. apply IH. auto. }
  unfold split_subs. destruct (join_comma (a :: l)) as [|c j] eqn:E; auto.
  exfalso. apply Hne. rewrite <- Hs. reflexivity.
Qed.

Lemma qos_int q : int_to_qos (qos_to_int q) = q.
Proof. destruct q; reflexivity. Qed.

Definition dec_session (c : bytes) (r : row_session) : session_state :=
  Mk_session_state c (split_subs (rs_subs r)) (rs_clean r).
Definition dec_retained (t : bytes) (r : row_retained) (m : message) : Prop :=
  mg_packet_id m = None /\ mg_topic m = t /\ mg_dup m = rr_dup r
  /\ mg_qos m = int_to_qos (rr_qos r) /\ mg_payload m = rr_payload r.
Definition dec_will (r : row_will) : will :=
  Mk_will (rw_topic r) (rw_payload r) (int_to_qos (rw_qos r)) (rw_retain r).

Record R_sql (s : maps) (m : sql_store) : Prop := {
  rq_sess : forall c, mp_session s c = option_map (dec_session c) (aget bytes_eqb c (sq_sessions m));
  rq_sess_nd : NoDup (akeys (sq_sessions m));
  rq_ret : forall t, match mp_retained s t, aget bytes_eqb t (sq_retained m) with
                     | Some g, Some r => dec_retained t r g
                     | None, None => True
                     | _, _ => False
                     end;
  rq_ret_nd : NoDup (akeys (sq_retained m));
  rq_will : forall c, mp_will s c = option_map dec_will (aget bytes_eqb c (sq_wills m));
  rq_inf : forall c p, mp_inflight s c p = option_map (inflight_of_row p) (aget key2_eqb (c, p) (sq_inflight m));
  rq_inf_nd : NoDup (akeys (sq_inflight m))
}.

Lemma R_sql_new : R_sql no_maps sql_new.
Proof. constructor; intros; try reflexivity; try exact I; constructor. Qed.

Lemma aget_app {K V} (eqb : K -> K -> bool) k (a b : list (K * V)) :
  aget eqb k (a ++ b) = match aget eqb k a with Some v => Some v | None => aget eqb k b end.
Proof. induction a as [|[k' v] a IH]; simpl; auto. destruct (eqb k k'); auto. Qed.

Lemma aget_upsert {K V} (eqb : K -> K -> bool) (Heqb : forall a b, eqb a b = true <-> a = b) k k' (v : V) m :
  aget eqb k (upsert eqb k' v m) = if eqb k k' then Some v else aget eqb k m.
Proof.
  unfold upsert. rewrite aget_app, aget_adel by auto. simpl.
  destruct (eqb k k'); auto. destruct (aget eqb k m); reflexivity.
Qed.

Lemma nodup_upsert {K V} (eqb : K -> K -> bool) (Heqb : forall a b, eqb a b = true <-> a = b) k (v : V) m :
  NoDup (akeys m) -> NoDup (akeys (upsert eqb k v m)).
Proof.
  intros H. unfold upsert, akeys. rewrite map_app. simpl.
  apply (Permutation_NoDup (l := k :: map fst (adel eqb k m))).
  - change (map fst (adel eqb k m) ++ [k]) with (akeys (adel eqb k m) ++ [k]). apply Permutation_cons_append.
  - constructor; [|apply nodup_adel; auto].
    change (~ In k (akeys (adel eqb k m))). rewrite akeys_adel by auto. tauto.
Qed.

Lemma key2_dec (c c' : bytes) (p p' : N) {A} (x y : A) :
  (if key2_eqb (c, p) (c', p') then x else y)
  = (if bytes_dec c c' then if N.eq_dec p p' then x else y else y).
Proof.
  unfold key2_eqb. simpl. destruct (bytes_dec c c') as [->|H].
  - rewrite bytes_eqb_refl. simpl. apply neqb_dec.
  - destruct (bytes_eqb c c') eqn:E; auto. apply beqb_spec in E. contradiction.
Qed.

Lemma sql_step_ok s m o r m' : R_sql s m -> op_sql o -> sql_step m o = (r, m') ->
  spec_result s o r /\ R_sql (spec_step s (sql_norm o)) m'.
Proof.
  intros HR Hv H. pose proof HR as HR0. destruct Hv as [Hv Hsub].
  destruct HR as [Hs Hsn Hr Hrn Hw Hi Hin]. destruct s as [se re wi fl]. simpl in *.
  destruct o; simpl in H; injection H as <- <-; simpl; (split; [try exact I|]);
    try exact HR0.
  - constructor; simpl; auto.
    + intros c. rewrite aget_upsert, beqb_dec by apply beqb_spec. unfold upd.
      destruct (bytes_dec c client) as [->|]; auto. unfold dec_session. simpl.
      rewrite split_join_comma by exact Hsub. reflexivity.
    + apply nodup_upsert; auto. apply beqb_spec.
  - rewrite Hs. unfold sql_load_session. destruct (aget bytes_eqb client (sq_sessions m)); reflexivity.
  - constructor; simpl; auto.
    + intros c. rewrite aget_adel, beqb_dec by apply beqb_spec. unfold upd.
      destruct (bytes_dec c client); auto.
    + apply nodup_adel; auto. apply beqb_spec.
  - unfold sql_list_sessions, akeys.
    destruct (lists_all bytes_eqb beqb_spec (fun c => aget bytes_eqb c (sq_sessions m)) (fun c _ => c) (sq_sessions m))
      as (ks & H1 & H2 & H3); auto.
    exists ks. split; [exact H1|split].
    + intros k. rewrite H2, Hs. destruct (aget bytes_eqb k (sq_sessions m)); simpl; intuition congruence.
    + revert H3. clear - Hs. change (fun kv : bytes * row_session => fst kv) with (@fst bytes row_session).
      generalize (map fst (sq_sessions m)). intros l H3. induction H3 as [|k w ks ws (v & E & ->) _ IH]; constructor; auto.
      exists (dec_session k v). rewrite Hs, E. auto.
  - destruct m0 as [g|]; constructor; simpl; auto.
    + intros t. rewrite aget_upsert, beqb_dec by apply beqb_spec. unfold upd.
      destruct (bytes_dec t topic) as [->|]; [|apply Hr].
      unfold dec_retained. simpl. rewrite qos_int. auto.
    + apply nodup_upsert; auto. apply beqb_spec.
    + intros t. rewrite aget_adel, beqb_dec by apply beqb_spec. unfold upd.
      destruct (bytes_dec t topic) as [->|]; [exact I|apply Hr].
    + apply nodup_adel; auto. apply beqb_spec.
  - unfold sql_get_retained.
    set (g := fun t r => Mk_message None t (rr_dup r) (int_to_qos (rr_qos r)) true (rr_payload r)).
    destruct (lists_filter bytes_eqb beqb_spec (fun t => matches filter t)
             (fun tm => topic_matches_filter (fst tm) (levels filter))
             (fun t => aget bytes_eqb t (sq_retained m)) g (sq_retained m))
      as (ks & H1 & H2 & H3); auto.
    { intros t v _. apply topic_matches_filter_iff. exact Hv. }
    exists ks. split; [exact H1|split].
    + intros k. rewrite H2. specialize (Hr k).
      destruct (aget bytes_eqb k (sq_retained m)), (re k); simpl; try contradiction; intuition congruence.
    + revert H3. clear - Hr.
      change (map (fun tr => Mk_message None (fst tr) (rr_dup (snd tr)) (int_to_qos (rr_qos (snd tr))) true (rr_payload (snd tr))))
        with (map (fun tr => g (fst tr) (snd tr))).
      match goal with |- Forall2 _ _ ?l -> _ => generalize l end.
      intros l H3. induction H3 as [|k w ks ws (v & E & ->) _ IH]; constructor; auto.
      specialize (Hr k). rewrite E in Hr. destruct (re k) as [x|]; [|contradiction].
      exists x. split; auto. destruct Hr as (-> & -> & -> & -> & ->). reflexivity.
  - constructor; simpl; auto. constructor.
  - constructor; simpl; auto.
    intros c. rewrite aget_upsert, beqb_dec by apply beqb_spec. unfold upd.
    destruct (bytes_dec c client); auto. unfold dec_will. simpl. rewrite qos_int. destruct w; reflexivity.
  - rewrite Hw. unfold sql_get_will. destruct (aget bytes_eqb client (sq_wills m)); reflexivity.
  - constructor; simpl; auto.
    intros c. rewrite aget_adel, beqb_dec by apply beqb_spec. unfold upd.
    destruct (bytes_dec c client); auto.
  - constructor; simpl; auto.
    + intros c p. rewrite aget_upsert, key2_dec by apply key2_spec. unfold upd, updn.
      destruct (bytes_dec c client) as [->|]; auto. destruct (N.eq_dec p pid) as [->|]; auto.
      simpl. unfold inflight_of_row. simpl. rewrite qos_int. reflexivity.
    + apply nodup_upsert; auto. apply key2_spec.
  - rewrite Hi. unfold sql_get_inflight. destruct (aget key2_eqb (client, pid) (sq_inflight m)); reflexivity.
  - constructor; simpl; auto.
    + intros c p. rewrite aget_adel, key2_dec by apply key2_spec. unfold upd, updn.
      destruct (bytes_dec c client) as [->|]; auto. destruct (N.eq_dec p pid) as [->|]; auto.
    + apply nodup_adel; auto. apply key2_spec.
  - unfold sql_get_all_inflight.
    destruct (lists_filter key2_eqb key2_spec (fun k => fst k = client)
             (fun kr => bytes_eqb client (fst (fst kr)))
             (fun k => aget key2_eqb k (sq_inflight m)) (fun k r => inflight_of_row (snd k) r) (sq_inflight m))
      as (ks & H1 & H2 & H3); auto.
    { intros k v _. simpl. rewrite beqb_spec. intuition. }
    exists (map snd ks). split; [|split].
    + clear H3. assert (Hc : forall k, In k ks -> fst k = client) by (intros k Hk; apply H2; exact Hk).
      clear H2. induction H1 as [|[c p] ks Hn Hnd IH]; simpl; constructor.
      * intros Hp. apply in_map_iff in Hp. destruct Hp as ([c' p'] & Ep & Hp). simpl in Ep. subst p'.
        apply Hn. pose proof (Hc _ (or_introl eq_refl)) as E1. pose proof (Hc _ (or_intror Hp)) as E2.
        simpl in *. subst. exact Hp.
      * apply IH. intros k Hk. apply Hc. right; auto.
    + intros p. rewrite in_map_iff. rewrite Hi. split.
      * intros ([c p'] & Ep & Hk). simpl in Ep. subst p'. apply H2 in Hk. simpl in Hk. destruct Hk as [-> Hk].
        destruct (aget key2_eqb (client, p) (sq_inflight m)); simpl; split; congruence || exact I.
      * intros [_ Hk]. exists (client, p). split; auto. apply H2. split; auto.
        destruct (aget key2_eqb (client, p) (sq_inflight m)); simpl in Hk; congruence.
    + assert (Hc : forall k, In k ks -> fst k = client) by (intros k Hk; apply H2; exact Hk).
      revert Hc H3. clear - Hi.
      match goal with |- _ -> Forall2 _ _ ?l -> _ => generalize l end.
      intros l Hc H3. induction H3 as [|[c p] w ks ws (v & E & ->) _ IH]; simpl; constructor.
      * pose proof (Hc _ (or_introl eq_refl)) as E1. simpl in E1. subst c.
        exists (inflight_of_row p v). rewrite Hi, E. auto.
      * apply IH. intros k Hk. apply Hc. right; auto.
Qed.

Lemma sql_run_ok os : forall s m rs m', R_sql s m -> Forall op_sql os ->
  store_run sql_step os m = (rs, m') -> spec_run s (map sql_norm os) rs.
Proof.
  induction os as [|o os IH]; intros s m rs m' HR Hv H; simpl in H.
  - injection H as <- <-. constructor.
  - destruct (sql_step m o) as [r m1] eqn:E1. destruct (store_run sql_step os m1) as [rs1 m2] eqn:E2.
    injection H as <- <-. inversion Hv; subst.
    destruct (sql_step_ok s m o r m1 HR) as [H1' H2']; auto. simpl. constructor.
    + destruct o; simpl in *; auto. destruct m0; auto.
    + eapply IH; eauto.
Qed.

(** ** Results are determined up to order *)
Lemma spec_result_equiv s o r r' : spec_result s o r -> spec_result s o r' -> res_equiv r r'.
Proof.
  destruct o, r, r'; simpl; try contradiction; intros H1 H2; subst; try apply re_same;
    try (constructor; eapply lists_unique; eauto).
Qed.
Lemma spec_run_equiv s os rs rs' : spec_run s os rs -> spec_run s os rs' -> Forall2 res_equiv rs rs'.
Proof.
  intros H. revert rs'. induction H as [|s o os r rs H1 H2 IH]; intros rs' H'; inversion H'; subst; constructor.
  - eapply spec_result_equiv; eauto.
  - apply IH. auto.
Qed.
