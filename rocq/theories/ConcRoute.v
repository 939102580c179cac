(** Facts about publishing with concurrent handlers. *)
From Verif Require Import Base Utf8 Codec SpecCodec Tac Maps CodecFacts Topic SpecTopic TopicFacts Property PacketProps Packets
  TopicTree TreeFacts Storage SpecStorage StorageFacts Broker SpecBroker BrokerFacts Auth Session Server SpecServer SessionFacts ServerFacts Conc SpecConc ConcFacts.

(** ** Traces *)
Lemma steps_app c a b : steps_of c (a ++ b) = steps_of c a ++ steps_of c b.
Proof. apply flat_map_app. Qed.
Lemma routed_app f a b : routed f (a ++ b) = routed f a ++ routed f b.
Proof. apply flat_map_app. Qed.
Lemma routed_by_app c f a b : routed_by c f (a ++ b) = routed_by c f a ++ routed_by c f b.
Proof. unfold routed_by. rewrite steps_app. apply flat_map_app. Qed.
Lemma steps_split c tr : forall l1 o l2, steps_of c tr = l1 ++ o :: l2 ->
  exists a b, tr = a ++ IStep c o :: b /\ steps_of c a = l1 /\ steps_of c b = l2.
Proof.
  induction tr as [|i tr IH]; intros l1 o l2 H; [destruct l1; discriminate|].
  destruct i as [e|d o'|d]; simpl in H.
  - destruct (IH _ _ _ H) as (a & b & -> & H1 & H2). exists (IStart e :: a), b. auto.
  - destruct (Nat.eqb d c) eqn:E.
    + apply Nat.eqb_eq in E. subst d. destruct l1 as [|o1 l1]; simpl in H; injection H as -> H.
      * exists [], tr. auto.
      * destruct (IH _ _ _ H) as (a & b & -> & H1 & H2). exists (IStep c o1 :: a), b. simpl. rewrite Nat.eqb_refl. simpl. rewrite H1. auto.
    + destruct (IH _ _ _ H) as (a & b & -> & H1 & H2). exists (IStep d o' :: a), b. simpl. rewrite E. auto.
  - destruct (IH _ _ _ H) as (a & b & -> & H1 & H2). exists (IEnd d :: a), b. auto.
Qed.
Lemma steps_in c tr o : In o (steps_of c tr) <-> In (IStep c o) tr.
Proof.
  unfold steps_of. rewrite in_flat_map. split.
  - intros ([e|d o'|d] & H1 & H2); try contradiction. destruct (Nat.eqb_spec d c) as [->|]; [|contradiction].
    destruct H2 as [->|[]]. exact H1.
  - intros H. exists (IStep c o). rewrite Nat.eqb_refl. split; [exact H|left; reflexivity].
Qed.
Lemma outputs_steps c tr : outputs_of c tr = flat_map outs_of (steps_of c tr).
Proof.
  induction tr as [|[e|d o|d] tr IH]; simpl; auto. destruct o; destruct (Nat.eqb d c); simpl; rewrite ?IH; reflexivity.
Qed.

(** ** What a handler does, whatever the others do *)
(** [wps Q k]: when [k] has finished, [Q] holds of its steps. *)
Fixpoint wps (Q : list obs -> Prop) (k : code) : Prop :=
  match k with
  | Finish => Q []
  | Emit o k => wps (fun l => Q (OOut o :: l)) k
  | Sess i f => forall s n, wps (fun l => Q (OSess i s (fst (f s n)) :: l)) (snd (f s n))
  | Sub f k => forall n, wps (fun l => Q (OSub f n :: l)) (k n)
  | Walk t k => forall n, wps (fun l => Q (OWalk t (targets t n) :: l)) (k (targets t n))
  | Send p m k => wps (fun l => Q (OSend p m :: l)) k
  | Leave k => wps (fun l => Q (OLeave :: l)) k
  | Store o k => forall m, wps (fun l => Q (OStore o (fst (mem_step m o)) :: l)) (k (fst (mem_step m o)))
  | Find id k => forall r, wps (fun l => Q (OFind id r :: l)) (k r)
  | Forget id k => wps (fun l => Q (OForget id :: l)) k
  | New id s k => forall i, wps (fun l => Q (ONew id i s :: l)) (k i)
  | Attach i k => wps (fun l => Q (OAttach i :: l)) k
  | Detach k => wps (fun l => Q (ODetach :: l)) k
  | Acquire l k => wps (fun h => Q (OAcquire l :: h)) k
  | Release l k => wps (fun h => Q (ORelease l :: h)) k
  end.
(** [always Q k]: at any time [Q] holds of the steps [k] has made. *)
Fixpoint always (Q : list obs -> Prop) (k : code) : Prop :=
  Q [] /\
  match k with
  | Finish => True
  | Emit o k => always (fun l => Q (OOut o :: l)) k
  | Sess i f => forall s n, always (fun l => Q (OSess i s (fst (f s n)) :: l)) (snd (f s n))
  | Sub f k => forall n, always (fun l => Q (OSub f n :: l)) (k n)
  | Walk t k => forall n, always (fun l => Q (OWalk t (targets t n) :: l)) (k (targets t n))
  | Send p m k => always (fun l => Q (OSend p m :: l)) k
  | Leave k => always (fun l => Q (OLeave :: l)) k
  | Store o k => forall m, always (fun l => Q (OStore o (fst (mem_step m o)) :: l)) (k (fst (mem_step m o)))
  | Find id k => forall r, always (fun l => Q (OFind id r :: l)) (k r)
  | Forget id k => always (fun l => Q (OForget id :: l)) k
  | New id s k => forall i, always (fun l => Q (ONew id i s :: l)) (k i)
  | Attach i k => always (fun l => Q (OAttach i :: l)) k
  | Detach k => always (fun l => Q (ODetach :: l)) k
  | Acquire l k => always (fun h => Q (OAcquire l :: h)) k
  | Release l k => always (fun h => Q (ORelease l :: h)) k
  end.
Lemma wps_mono k : forall (P Q : list obs -> Prop), (forall l, P l -> Q l) -> wps P k -> wps Q k.
Proof. induction k using code_induction; intros P Q HPQ; simpl; intros HP; auto; intros; (eapply IHk || eapply H); try exact HP; try apply HP; simpl; auto. Qed.
Lemma wps_next Q k w o k1 : wps Q k -> next k w = Some (o, k1) -> wps (fun l => Q (o :: l)) k1.
Proof.
  destruct k; cbn [wps Conc.next]; intros H E; try discriminate; try (injection E as <- <-; auto; fail).
  destruct (nth_error (w_heap w) i) as [s|]; [|discriminate]. specialize (H s (bk_tree (w_broker w))).
  destruct (f s (bk_tree (w_broker w))) as [s' k']. injection E as <- <-. exact H.
Qed.
Lemma always_nil Q k : always Q k -> Q [].
Proof. destruct k; intros [H _]; exact H. Qed.
Lemma always_next Q k w o k1 : always Q k -> next k w = Some (o, k1) -> always (fun l => Q (o :: l)) k1.
Proof.
  destruct k; cbn [always Conc.next]; intros [_ H] E; try discriminate; try (injection E as <- <-; auto; fail).
  destruct (nth_error (w_heap w) i) as [s|]; [|discriminate]. specialize (H s (bk_tree (w_broker w))).
  destruct (f s (bk_tree (w_broker w))) as [s' k']. injection E as <- <-. exact H.
Qed.
Lemma tasks_other c d (k : code) l : d <> c -> aget Nat.eqb c (aput Nat.eqb d k l) = aget Nat.eqb c l.
Proof. intros H. apply (aget_put_other _ nateqb_spec). auto. Qed.
Lemma tasks_del c d (l : list (nat * code)) : d <> c -> aget Nat.eqb c (adel Nat.eqb d l) = aget Nat.eqb c l.
Proof. intros H. apply (aget_del_other _ nateqb_spec). auto. Qed.
(** A handler at work goes on until its end. *)
Lemma run_task cfg x tr x' : mruns cfg x tr x' -> forall c k Q R, aget Nat.eqb c (cn_tasks x) = Some k -> wps Q k -> always R k ->
  (~ In (IEnd c) tr -> R (steps_of c tr) /\ exists k', aget Nat.eqb c (cn_tasks x') = Some k' /\ wps (fun l => Q (steps_of c tr ++ l)) k'
     /\ always (fun l => R (steps_of c tr ++ l)) k') /\
  (forall mid post, tr = mid ++ IEnd c :: post -> ~ In (IEnd c) mid -> Q (steps_of c mid)).
Proof.
  induction 1 as [x|x m x1 i tr x2 Hs Hr IH]; intros c k Q R Hk HQ HR.
  - split; [|intros [] ? E; discriminate]. intros _. split; [apply (always_nil _ _ HR)|]. exists k. auto.
  - apply mstep_inv in Hs. destruct Hs as [(e & -> & -> & He & Hi & ->)|[(d & -> & -> & Hd & ->)|(d & k0 & o & k1 & -> & -> & Hd & Hn & Hm & ->)]].
    + assert (Hne : event_conn e <> c) by congruence.
      destruct (IH c k Q R) as [IH1 IH2]; [cbn [cn_tasks]; rewrite tasks_other; auto|auto|auto|]. split.
      * intros Hend. apply IH1. intros H. apply Hend. right. exact H.
      * intros mid post E Hend. destruct mid as [|j mid]; [discriminate|]. injection E as <- E. simpl. eapply IH2; eauto. intros H. apply Hend. right. exact H.
    + destruct (Nat.eq_dec d c) as [->|Hne].
      * rewrite Hk in Hd. injection Hd as ->. split; [intros H; exfalso; apply H; left; reflexivity|].
        intros mid post E Hend. destruct mid as [|j mid]; [exact HQ|]. injection E as <- E. exfalso. apply Hend. left. reflexivity.
      * destruct (IH c k Q R) as [IH1 IH2]; [cbn [cn_tasks]; rewrite tasks_del; auto|auto|auto|]. split.
        -- intros Hend. apply IH1. intros H. apply Hend. right. exact H.
        -- intros mid post E Hend. destruct mid as [|j mid]; [injection E; congruence|]. injection E as <- E. simpl. eapply IH2; eauto. intros H. apply Hend. right. exact H.
    + destruct (Nat.eq_dec d c) as [->|Hne].
      * rewrite Hk in Hd. injection Hd as <-.
        destruct (IH c k1 (fun l => Q (o :: l)) (fun l => R (o :: l))) as [IH1 IH2].
        { cbn [cn_tasks]. apply (aget_put_same _ nateqb_spec). }
        { eapply wps_next; eauto. }
        { eapply always_next; eauto. }
        simpl. rewrite Nat.eqb_refl. split.
        -- intros Hend. apply IH1. intros H. apply Hend. right. exact H.
        -- intros mid post E Hend. destruct mid as [|j mid]; [discriminate|]. injection E as <- E. simpl. rewrite Nat.eqb_refl. eapply IH2; eauto. intros H. apply Hend. right. exact H.
      * destruct (IH c k Q R) as [IH1 IH2]; [cbn [cn_tasks]; rewrite tasks_other; auto|auto|auto|].
        simpl. rewrite (proj2 (Nat.eqb_neq d c) Hne). split.
        -- intros Hend. apply IH1. intros H. apply Hend. right. exact H.
        -- intros mid post E Hend. destruct mid as [|j mid]; [discriminate|]. injection E as <- E. simpl. rewrite (proj2 (Nat.eqb_neq d c) Hne).
           eapply IH2; eauto. intros H. apply Hend. right. exact H.
Qed.
Lemma always_true k : always (fun _ => True) k.
Proof. induction k using code_induction; simpl; auto. Qed.
Lemma wps_true k : wps (fun _ => True) k.
Proof. induction k using code_induction; simpl; auto. Qed.

(** ** The topic tree in a schedule *)
Definition tree (x : conf) : node message := bk_tree (w_broker (cn_world x)).
Lemma log_send_other q : forall p v (n : node message), p <> q -> log_at q (send_at p v n) = log_at q n.
Proof.
  intros p v n Hne. destruct (node_at p n) eqn:E.
  - rewrite log_at_send by congruence. destruct (path_eq_dec q p) as [->|]; [contradiction|reflexivity].
  - revert p n Hne E. induction q as [|k q IH]; intros p n Hne E.
    + destruct p as [|l p]; [contradiction|]. simpl in *. destruct (child l n); reflexivity.
    + destruct p as [|l p]; [discriminate|]. simpl in *. destruct (child l n) as [n1|] eqn:El; [|reflexivity].
      unfold log_at. simpl. unfold child at 1. simpl. rewrite aget_aput by apply beqb_spec.
      destruct (bytes_eqb k l) eqn:Ek; [|reflexivity]. apply beqb_spec in Ek. subst l. rewrite El.
      apply (IH p n1); [congruence|exact E].
Qed.
Lemma tree_apply c o w q : node_at q (bk_tree (w_broker w)) <> None -> node_at q (bk_tree (w_broker (apply c o w))) <> None.
Proof.
  destruct o; auto; simpl; intros H; [apply node_at_subscribe; auto|apply node_at_send; exact H].
Qed.
Lemma log_apply c o w f : node_at (levels f) (bk_tree (w_broker w)) <> None ->
  sent_to (apply c o w) f = sent_to w f ++ sent_by f o.
Proof.
  intros H. unfold sent_to. destruct o; simpl; rewrite ?app_nil_r; auto.
  - apply log_at_subscribe.
  - destruct (list_eq_dec _ _ _) as [->|Hne].
    + rewrite log_at_send by exact H. destruct (path_eq_dec _ _); [reflexivity|contradiction].
    + rewrite app_nil_r. apply log_send_other. exact Hne.
Qed.
Lemma node_runs cfg x tr x' q : mruns cfg x tr x' -> node_at q (tree x) <> None -> node_at q (tree x') <> None.
Proof.
  induction 1 as [x|x m x1 i tr x2 Hs Hr IH]; auto. intros H. apply IH. apply mstep_inv in Hs.
  destruct Hs as [(e & -> & -> & He & Hi & ->)|[(d & -> & -> & Hd & ->)|(d & k0 & o & k1 & -> & -> & Hd & Hn & Hm & ->)]]; auto.
  apply tree_apply. exact H.
Qed.
Lemma log_runs cfg x tr x' f : mruns cfg x tr x' -> node_at (levels f) (tree x) <> None ->
  sent_to (cn_world x') f = sent_to (cn_world x) f ++ routed f tr.
Proof.
  induction 1 as [x|x m x1 i tr x2 Hs Hr IH]; intros H; [rewrite app_nil_r; reflexivity|]. apply mstep_inv in Hs.
  destruct Hs as [(e & -> & -> & He & Hi & ->)|[(d & -> & -> & Hd & ->)|(d & k0 & o & k1 & -> & -> & Hd & Hn & Hm & ->)]]; simpl; auto.
  rewrite IH; [|apply tree_apply; exact H]. cbn [cn_world]. rewrite log_apply by exact H. rewrite <- app_assoc. reflexivity.
Qed.
(** What one step says about the moment it was made. *)
Lemma step_at cfg x a c o b x' : mruns cfg x (a ++ IStep c o :: b) x' ->
  exists y k k1, mruns cfg x a y /\ aget Nat.eqb c (cn_tasks y) = Some k /\ next k (cn_world y) = Some (o, k1) /\ may c o y = true
    /\ mruns cfg (Mk_conf (apply c o (cn_world y)) (aput Nat.eqb c k1 (cn_tasks y)) (relock c o (cn_locks y)) (reread c o (cn_readers y))) b x'.
Proof.
  intros H. apply mruns_app in H. destruct H as (y & H1 & H2). inversion H2 as [|? m x1 ? ? ? Hs Hr]; subst.
  apply mstep_inv in Hs. destruct Hs as [(e & -> & He & _)|[(d & -> & Hd & _)|(d & k0 & o' & k1 & -> & Hi & Hd & Hn & Hm & ->)]]; try discriminate.
  injection Hi as <- <-. exists y, k0, k1. auto.
Qed.
Lemma walk_at cfg x a c t ps b x' : mruns cfg x (a ++ IStep c (OWalk t ps) :: b) x' ->
  exists y, mruns cfg x a y /\ ps = targets t (tree y).
Proof.
  intros H. destruct (step_at _ _ _ _ _ _ _ H) as (y & k & k1 & H1 & _ & Hn & _). exists y. split; [exact H1|].
  destruct k; cbn [Conc.next] in Hn; try discriminate.
  - destruct (nth_error _ _); [|discriminate]. destruct (f _ _). discriminate.
  - injection Hn as -> <- _. reflexivity.
Qed.
Lemma sub_node cfg x a c f n b x' : mruns cfg x (a ++ IStep c (OSub f n) :: b) x' -> node_at (levels f) (tree x') <> None.
Proof.
  intros H. destruct (step_at _ _ _ _ _ _ _ H) as (y & k & k1 & H1 & _ & Hn & _ & H2). eapply node_runs; [exact H2|].
  unfold tree. simpl. apply node_at_subscribe. right. exists []. rewrite app_nil_r. reflexivity.
Qed.

(** ** Handlers of PUBLISH and SUBSCRIBE *)
Definition mutes (l : list obs) : Prop := Forall (fun o => match o with OOut _ | OSend _ _ => False | _ => True end) l.
Lemma wps_sends Q ps m k : wps (fun l => Q (map (fun p => OSend p m) ps ++ l)) k -> wps Q (sends ps m k).
Proof. revert Q. induction ps as [|p ps IH]; intros Q H; simpl; [exact H|]. apply IH. exact H. Qed.
Lemma wps_publish Q t m k :
  (forall n l0, mutes l0 -> wps (fun l => Q (l0 ++ OWalk t (targets t n) :: map (fun p => OSend p m) (targets t n) ++ OLeave :: l)) k) ->
  wps Q (publish t m k).
Proof.
  intros H. unfold publish. destruct (mg_retain m); [destruct (mg_payload m) as [[|]|]|]; simpl; intros; apply wps_sends; simpl.
  1-3: apply (H _ [_]); repeat constructor.
  apply (H _ []). constructor.
Qed.
(** The steps of a handler that publishes message [m] on [t] and then sends [os]. *)
Definition publishing (t : bytes) (m : message) (l : list obs) : Prop :=
  exists l0 n l1, mutes l0 /\ l = l0 ++ OWalk t (targets t n) :: map (fun p => OSend p m) (targets t n) ++ OLeave :: l1
    /\ Forall (fun o => match o with OSend _ _ => False | _ => True end) l1.
Lemma wps_valid_publish cfg c i p : valid_publish p -> wps (publishing (pb_topic p) (message_of p)) (packet_code cfg c i (Publish p)).
Proof.
  intros [Ht Hq]. cbn [packet_code]. unfold publish_code.
  rewrite (proj2 (publish_topic_iff _ (topic_name_utf8 _ Ht)) Ht).
  assert (Hgo : forall r (Q : list obs -> Prop), (forall l, publishing (pb_topic p) (message_of p) l -> Q l) -> wps Q (publish (pb_topic p) (message_of p) (respond c r))).
  { intros r Q HQ. apply wps_publish. intros n l0 H0. destruct r as [x|]; cbn [respond wps]; apply HQ; exists l0, n; eexists; repeat split; auto; repeat constructor. }
  destruct (pb_qos p); destruct (pb_packet_id p); try (destruct Hq as [Hq|[Hq1 Hq2]]; congruence); try (apply Hgo; auto; fail).
  cbn [wps]. intros s n1. cbn [fst snd]. apply Hgo. intros l (l0 & n2 & l1 & H0 & -> & H1). eexists (_ :: l0), n2, l1. repeat split; auto. constructor; auto.
Qed.
Lemma sent_by_sends f m ps : flat_map (sent_by f) (map (fun p => OSend p m) ps) = repeat m (count_occ path_eq_dec ps (levels f)).
Proof.
  induction ps as [|p ps IH]; [reflexivity|]. simpl. rewrite IH. unfold path_eq_dec at 2.
  change (path_eq_dec p (levels f)) with (list_eq_dec (list_eq_dec N.eq_dec) p (levels f)). destruct (list_eq_dec _ p (levels f)); reflexivity.
Qed.
Lemma sent_by_none f l : Forall (fun o => match o with OSend _ _ => False | _ => True end) l -> flat_map (sent_by f) l = [].
Proof. induction 1 as [|o l H _ IH]; [reflexivity|]. simpl. rewrite IH. destruct o; auto. contradiction. Qed.
Lemma mutes_none f l : mutes l -> flat_map (sent_by f) l = [].
Proof. intros H. apply sent_by_none. eapply Forall_impl; [|exact H]. intros []; auto. Qed.
Lemma count_targets t n f : topic_name t ->
  count_occ path_eq_dec (targets t n) (levels f) = (if matches_dec f t then if is_some (node_at (levels f) n) then 1 else 0 else 0)%nat.
Proof.
  intros Ht. rewrite targets_dests. pose proof (in_dests (levels t) (topic_name_plain _ Ht) n (levels f)) as Hin.
  pose proof (nodup_dests (levels t) (topic_name_plain _ Ht) n) as Hnd.
  rewrite <- matches_iff in Hin. rewrite (NoDup_count_occ path_eq_dec) in Hnd. specialize (Hnd (levels f)).
  assert (Hz : count_occ path_eq_dec (dests (levels t) [] n) (levels f) = O \/ In (levels f) (dests (levels t) [] n)).
  { destruct (count_occ path_eq_dec (dests (levels t) [] n) (levels f)) eqn:E; auto. right. apply (count_occ_In path_eq_dec). lia. }
  destruct (matches_dec f t) as [H|H].
  - destruct (node_at (levels f) n) eqn:E; cbn [is_some].
    + assert (Hi : In (levels f) (dests (levels t) [] n)) by (apply Hin; split; [congruence|exact H]).
      apply (count_occ_In path_eq_dec) in Hi. lia.
    + destruct Hz as [Hz|Hz]; [exact Hz|]. apply Hin in Hz. destruct Hz. congruence.
  - destruct Hz as [Hz|Hz]; [exact Hz|]. apply Hin in Hz. tauto.
Qed.

(** ** Open connections *)
Lemma open_after_app b o1 o2 : open_after b (o1 ++ o2) = open_after (open_after b o1) o2.
Proof. apply fold_left_app. Qed.
Lemma outputs_app c a b : outputs_of c (a ++ b) = outputs_of c a ++ outputs_of c b.
Proof. apply flat_map_app. Qed.
Lemma events_app c a b : events_of c (a ++ b) = events_of c a ++ events_of c b.
Proof. apply flat_map_app. Qed.
Definition open_inv (c : nat) (b : bool) (x : conf) : Prop :=
  match aget Nat.eqb c (cn_tasks x) with
  | None => is_some (aget Nat.eqb c (w_conns (cn_world x))) = b
  | Some k => wpo (fun os b' => b' = open_after b os) (is_some (aget Nat.eqb c (w_conns (cn_world x)))) k
  end.
Lemma open_run cfg c x tr x' b : mruns cfg x tr x' -> Forall texts (events_of c tr) -> open_inv c b x ->
  open_inv c (open_after b (outputs_of c tr)) x'.
Proof.
  intros Hr. revert b. induction Hr as [x|x m x1 i tr x2 Hs Hr IH]; intros b Ht Hb; [exact Hb|].
  assert (Ht' : Forall texts (events_of c tr)).
  { unfold events_of in Ht. simpl in Ht. apply Forall_app in Ht. apply Ht. }
  apply mstep_inv in Hs. destruct Hs as [(e & -> & -> & He & Hn & ->)|[(d & -> & -> & Hk & ->)|(d & k & o & k1 & -> & -> & Hk & Hn & _ & ->)]].
  - apply IH; auto. unfold open_inv in *. cbn [cn_world cn_tasks].
    destruct (Nat.eq_dec (event_conn e) c) as [E|E].
    + subst c. rewrite (aget_put_same _ nateqb_spec). rewrite Hn in Hb. rewrite <- Hb.
      eapply wpo_mono; [|apply wpo_handler; [|exact He]].
      * intros os b' [_ H]. exact H.
      * unfold events_of in Ht. cbn [flat_map] in Ht. rewrite event_of_conn, Nat.eqb_refl in Ht by exact He. inversion Ht; assumption.
    + rewrite tasks_other by exact E. exact Hb.
  - apply IH; auto. unfold open_inv in *. cbn [cn_world cn_tasks]. destruct (Nat.eq_dec d c) as [->|E].
    + rewrite (aget_del_same _ nateqb_spec). rewrite Hk in Hb. exact Hb.
    + rewrite tasks_del by exact E. exact Hb.
  - change (IStep d o :: tr) with ([IStep d o] ++ tr). rewrite outputs_app, open_after_app. apply IH; auto.
    unfold open_inv in *. cbn [cn_world cn_tasks]. destruct (Nat.eq_dec d c) as [->|E].
    + rewrite (aget_put_same _ nateqb_spec), is_some_att. rewrite Hk in Hb.
      eapply wpo_next in Hb; [|exact Hn]. eapply wpo_mono; [|exact Hb]. cbv beta. intros os b' ->.
      rewrite outputs_steps. simpl. rewrite Nat.eqb_refl. simpl. rewrite app_nil_r, open_after_app. reflexivity.
    + rewrite tasks_other, conns_apply by auto. rewrite outputs_steps. simpl. rewrite (proj2 (Nat.eqb_neq _ _) E). exact Hb.
Qed.
Lemma open_conns {st0} cfg c tr x : mruns cfg (conf_on st0) tr x -> Forall texts (events_of c tr) -> idle c x ->
  (opened c tr <-> exists i, aget Nat.eqb c (w_conns (cn_world x)) = Some i).
Proof.
  intros Hr Ht Hi. assert (H : open_inv c (open_after false (outputs_of c tr)) x) by (eapply open_run; eauto; reflexivity).
  unfold open_inv in H. rewrite Hi in H. unfold opened. rewrite <- H. destruct (aget Nat.eqb c _) as [i|]; simpl; split; try discriminate; eauto.
  intros [i E]. discriminate.
Qed.
(** The beginning of a handler. *)
Lemma start_at cfg x a e b x' : mruns cfg x (a ++ IStart e :: b) x' ->
  exists y, mruns cfg x a y /\ idle (event_conn e) y /\ e <> ERestart /\
    mruns cfg (Mk_conf (cn_world y) (aput Nat.eqb (event_conn e) (handler cfg (aget Nat.eqb (event_conn e) (w_conns (cn_world y))) e) (cn_tasks y)) (cn_locks y) (cn_readers y)) b x'.
Proof.
  intros H. apply mruns_app in H. destruct H as (y & H1 & H2). inversion H2 as [|? m x1 ? ? ? Hs Hr]; subst.
  apply mstep_inv in Hs. destruct Hs as [(e' & -> & He & Hne & Hi & ->)|[(d & -> & Hd & _)|(d & k0 & o' & k1 & -> & Hi & _)]]; try discriminate.
  injection He as <-. exists y. auto.
Qed.
Lemma handled_steps {st0} cfg c e pre mid post tr x Q : mruns cfg (conf_on st0) tr x -> handled c e pre mid post tr ->
  (forall y, mruns cfg (conf_on st0) pre y -> idle c y -> wps Q (handler cfg (aget Nat.eqb c (w_conns (cn_world y))) e)) ->
  Q (steps_of c mid).
Proof.
  intros Hr (-> & Hc & Hend) HQ. apply start_at in Hr. destruct Hr as (y & H1 & Hi & Hne & H2).
  rewrite event_of_conn in Hc by exact Hne. apply Nat.eqb_eq in Hc. subst c.
  eapply (run_task _ _ _ _ H2 (event_conn e) _ Q (fun _ => True)); [cbn [cn_tasks]; apply (aget_put_same _ nateqb_spec)|auto|apply always_true|reflexivity|exact Hend].
Qed.

(** ** Published once to everybody *)
Lemma event_texts c pre e post : Forall texts (events_of c (pre ++ e :: post)) -> Forall texts (events_of c pre).
Proof. rewrite events_app. intros H. apply Forall_app in H. apply H. Qed.
Lemma publish_steps {st0} cfg c p pre mid post tr x : mruns cfg (conf_on st0) tr x -> Forall texts (events_of c tr) ->
  handled c (EPacket c (Publish p)) pre mid post tr -> opened c pre -> valid_publish p ->
  publishing (pb_topic p) (message_of p) (steps_of c mid).
Proof.
  intros Hr Ht Hh Ho Hv. eapply handled_steps; eauto. intros y Hy Hi.
  destruct Hh as (-> & _ & _).
  apply (open_conns cfg c pre y Hy) in Ho; [|eapply event_texts; eauto|exact Hi].
  destruct Ho as [i ->]. cbn [handler]. apply wps_valid_publish. exact Hv.
Qed.
Lemma published_once {st0} cfg c p pre mid post tr x f : mruns cfg (conf_on st0) tr x -> Forall texts (events_of c tr) ->
  handled c (EPacket c (Publish p)) pre mid post tr -> opened c pre -> valid_publish p ->
  exists y mid1 mid2, mid = mid1 ++ mid2 /\ mruns cfg (conf_on st0) (pre ++ IStart (EPacket c (Publish p)) :: mid1) y /\
  routed_by c f mid = (if matches_dec f (pb_topic p) then if is_some (node_at (levels f) (tree y)) then [message_of p] else [] else []) /\
  forall a o b, mid = a ++ IStep c (OOut o) :: b -> routed_by c f b = [].
Proof.
  intros Hr Ht Hh Ho Hv. destruct (publish_steps _ _ _ _ _ _ _ _ Hr Ht Hh Ho Hv) as (l0 & n & l1 & H0 & Hl & H1).
  destruct (steps_split _ _ _ _ _ Hl) as (a & b & Hmid & Ha & Hb). destruct Hh as (Htr & _ & _).
  assert (Hr1 : mruns cfg (conf_on st0) ((pre ++ IStart (EPacket c (Publish p)) :: a) ++ IStep c (OWalk (pb_topic p) (targets (pb_topic p) n)) :: b ++ IEnd c :: post) x).
  { rewrite Htr, Hmid in Hr. rewrite <- app_assoc. simpl. rewrite <- app_assoc in Hr. exact Hr. }
  destruct (walk_at _ _ _ _ _ _ _ _ Hr1) as (y & Hy & Hn). exists y, a, (IStep c (OWalk (pb_topic p) (targets (pb_topic p) n)) :: b).
  split; [exact Hmid|]. split; [exact Hy|]. split.
  - unfold routed_by. rewrite Hl, flat_map_app. cbn [flat_map]. rewrite flat_map_app. cbn [flat_map].
    rewrite (mutes_none f l0 H0), (sent_by_none f l1 H1). simpl. rewrite sent_by_sends, app_nil_r, Hn, (count_targets _ _ _ (proj1 Hv)).
    destruct (matches_dec f (pb_topic p)); [|reflexivity]. destruct (node_at (levels f) (tree y)); reflexivity.
  - intros a' o b' E. unfold routed_by. assert (E' : steps_of c mid = steps_of c a' ++ OOut o :: steps_of c b').
    { rewrite E, steps_app. simpl. rewrite Nat.eqb_refl. reflexivity. }
    rewrite Hl in E'. apply sent_by_none.
    (* the output is among [l1] *)
    assert (Hin : forall l u v, mutes l -> l ++ l1 = u ++ OOut o :: v -> exists u', l1 = u' ++ OOut o :: v).
    { clear. induction l as [|x l IH]; intros u v Hm E; [eauto|]. inversion Hm; subst. destruct u as [|y u]; simpl in E; injection E as -> E; [contradiction|]. eapply IH; eauto. }
    assert (Hin2 : forall l u v, Forall (fun o => match o with OOut _ => False | _ => True end) l -> l ++ l1 = u ++ OOut o :: v -> exists u', l1 = u' ++ OOut o :: v).
    { clear. induction l as [|x l IH]; intros u v Hm E; [eauto|]. inversion Hm; subst. destruct u as [|y u]; simpl in E; injection E as -> E; [contradiction|]. eapply IH; eauto. }
    destruct (Hin2 (l0 ++ OWalk (pb_topic p) (targets (pb_topic p) n) :: map (fun p0 => OSend p0 (message_of p)) (targets (pb_topic p) n) ++ [OLeave]) (steps_of c a') (steps_of c b')) as [u' Hu].
    + apply Forall_app. split; [eapply Forall_impl; [|exact H0]; intros []; auto|]. constructor; [exact I|]. apply Forall_app. split; [|repeat constructor].
      apply Forall_forall. intros z Hz. apply in_map_iff in Hz. destruct Hz as (q & <- & _). exact I.
    + rewrite <- E', <- app_assoc. simpl. rewrite <- app_assoc. reflexivity.
    + rewrite Hu in H1. apply Forall_app in H1. destruct H1 as [_ H1]. inversion H1; assumption.
Qed.

(** ** After the SUBACK *)
Lemma always_subscribe c i p f : topic_filter f -> In f (map fst (sb_payload p)) ->
  always (fun l => (exists a, In (OOut (Sent c (SubAck a))) l) -> exists n, In (OSub f n) l) (subscribe_code c i p).
Proof.
  intros Hf Hin.
  assert (Hv : validate_subscribe_filter f = None) by (apply subscribe_filter_iff; [apply topic_filter_utf8|]; exact Hf).
  assert (Hd : forall (Q : list obs -> Prop) k, (forall l, Q l) -> always Q k).
  { intros Q k. revert Q. induction k using code_induction; intros Q HQ; simpl; split; auto. }
  assert (Hall : forall fs k (Q : list obs -> Prop), In f (map fst fs) ->
     (forall l, (~ (exists a, In (OOut (Sent c (SubAck a))) l) -> Q l)) -> (forall l n, In (OSub f n) l -> Q l) -> always Q (subscribe_all i fs k)).
  { induction fs as [|[g o] fs IH]; intros k Q Hf1 Q1 Q2; [contradiction|]. cbn [subscribe_all]. simpl in Hf1.
    assert (Q0 : Q []) by (apply Q1; intros [a []]).
    destruct (validate_subscribe_filter g) eqn:Eg.
    - destruct Hf1 as [->|Hf1]; [congruence|]. apply IH; auto.
    - destruct Hf1 as [->|Hf1].
      + split; [exact Q0|]. intros n. apply Hd. intros l. apply (Q2 _ n). left. reflexivity.
      + unfold subscribe_one. cbn [always]. split; [exact Q0|]. intros n. split; [apply Q1; intros [a [H|[]]]; discriminate|]. intros m. split; [apply Q1; intros [a [H|[H|[]]]]; discriminate|].
        intros s n1. cbn [fst snd]. apply IH; auto.
        * intros l Hl. apply Q1. intros [a Ha]. apply Hl. exists a. destruct Ha as [?|[?|[?|Ha]]]; [discriminate..|exact Ha].
        * intros l n2 Hl. apply (Q2 _ n2). right. right. right. exact Hl. }
  unfold subscribe_code. cbn [always]. split; [intros [a []]|]. split; [intros [a [H|[]]]; discriminate|]. intros s n. cbn [fst snd].
  apply Hall; auto.
  - intros l Hl [a Ha]. exfalso. apply Hl. exists a. destruct Ha as [?|[?|Ha]]; [discriminate..|exact Ha].
  - intros l n0 Hl _. exists n0. right. right. exact Hl.
Qed.
Lemma granted_sub {st0} cfg f tr x : mruns cfg (conf_on st0) tr x -> (forall c, Forall texts (events_of c tr)) -> topic_filter f -> granted f tr ->
  exists d n, In (IStep d (OSub f n)) tr.
Proof.
  intros Hr Ht Hf (d & q & pre & mid & post & a & -> & Ho & Hend & Hin).
  pose proof Hr as Hr'. apply start_at in Hr'. destruct Hr' as (y & Hy & Hi & _ & H2). cbn [event_conn] in *.
  apply (open_conns cfg d pre y Hy) in Ho; [|eapply event_texts; eauto|exact Hi]. destruct Ho as [i Hc]. rewrite Hc in H2. cbn [handler packet_code] in H2.
  change (mid ++ IStep d (OOut (Sent d (SubAck a))) :: post) with (mid ++ [IStep d (OOut (Sent d (SubAck a)))] ++ post) in H2.
  rewrite app_assoc in H2. apply mruns_app in H2. destruct H2 as (z & H2 & _).
  destruct (run_task _ _ _ _ H2 d (subscribe_code d i q) (fun _ => True) _ (aget_put_same _ nateqb_spec _ _ _) (wps_true _) (always_subscribe d i q f Hf Hin)) as [H _].
  destruct H as [H _]. { intros H. apply in_app_iff in H. destruct H as [H|[H|[]]]; [auto|discriminate]. }
  destruct H as [n Hn].
  { exists a. rewrite steps_in. apply in_or_app. right. left. reflexivity. }
  exists d, n. apply steps_in in Hn. apply in_or_app. right. right. apply in_app_iff in Hn. destruct Hn as [Hn|[Hn|[]]]; [|discriminate].
  apply in_or_app. left. exact Hn.
Qed.
