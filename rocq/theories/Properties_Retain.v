(** Property C121: retained messages from the acknowledgement on, while handlers interleave and the broker stops and starts.
    Every theorem is followed by a concrete case meeting its hypotheses. *)
From Coq Require Import String.
From Verif Require Import Base Utf8 Codec SpecCodec Tac CodecFacts Str Maps Topic SpecTopic TopicFacts Property PacketProps Packets
  TopicTree TreeFacts Storage StorageFacts Broker Auth Session Server SpecServer SessionFacts ServerFacts HandlerFacts HistoryFacts
  ResumeFacts Conc SpecConc ConcFacts ConcRoute SpecLives SpecRetain ConcRetain ConcLocks Examples Properties_Routing Properties_Conc.
Local Open Scope list_scope.

(** In the life [tr] connection [c] sends the PUBLISH [p] with the retain flag, and has been answered before [post]; whoever asked
    before for a message to be retained for this topic had been served, and from here on nobody does. *)
Definition publishes_retained (c : nat) (p : publish_packet) (pre mid post tr : list item) : Prop :=
  tr = pre ++ IStart (EPacket c (Publish p)) :: mid ++ post /\ opened c pre /\ topic_name (pb_topic p) /\ pb_retain p = true
  /\ settled (pb_topic p) pre /\ undisturbed (pb_topic p) (mid ++ post) /\ confirmed c mid.

Lemma kept_look p : match kept_as p with Some g => [with_retain true g] | None => [] end = kept_of p.
Proof. unfold kept_as, kept_of. destruct (pb_payload p) as [[|b v]|] eqn:E; try reflexivity. unfold with_retain, message_of. cbn [mg_packet_id mg_topic mg_dup mg_qos mg_payload]. rewrite E. reflexivity. Qed.
Lemma retained_calm cfg trs st tr x c p pre mid post :
  lives cfg trs st -> mruns cfg (conf_on st) tr x -> Forall texts (events_of c tr) ->
  Forall (no_retained_will (pb_topic p)) trs -> no_retained_will (pb_topic p) tr -> publishes_retained c p pre mid post tr ->
  exists y, mruns cfg y post x /\ calm (pb_topic p) y /\ look (pb_topic p) (w_store (cn_world y)) = kept_as p.
Proof.
  intros Hl Hr Ht Hw Hw1 (Htr & Ho & Hn & Hp & Hs & Hu & Hc). set (t := pb_topic p) in *. pose proof (lives_rstore t _ _ _ Hl Hw) as Hst.
  assert (Htx : utf8 t).
  { rewrite Forall_forall in Ht. apply (Ht (EPacket c (Publish p))). rewrite Htr, events_app. apply in_or_app. right. simpl. rewrite Nat.eqb_refl. left. reflexivity. }
  rewrite Htr in Hr, Ht, Hw1. apply mruns_app in Hr. destruct Hr as (z & Hz & Hzx). apply willfree_app in Hw1. destruct Hw1 as [W1 W2].
  change (IStart (EPacket c (Publish p)) :: mid ++ post) with ([IStart (EPacket c (Publish p))] ++ mid ++ post) in W2, Hzx. apply willfree_app in W2. destruct W2 as [W2 W3].
  pose proof (rinv_runs t _ _ _ _ Hz [] W1 (rinv_on t _ Hst)) as Hi. assert (Hcz : calm t z) by (eapply rinv_calm; [exact Hi|]; intros d a e b E <- Hre; eapply Hs; eassumption).
  inversion Hzx as [|? m x1 ? ? ? Hm Hx1]; subst. apply mstep_inv in Hm.
  destruct Hm as [(e & -> & E & Hne & Hn' & ->)|[(d & -> & E & _)|(d & k0 & o & k1 & -> & E & _)]]; try discriminate. injection E as <-. cbn [event_conn] in *.
  apply (open_conns cfg c _ z Hz) in Ho; [|eapply event_texts; exact Ht|exact Hn']. destruct Ho as [i Hci]. rewrite Hci in Hx1. cbn [handler packet_code] in Hx1.
  assert (Hpd : pending t c (kept_as p) (Mk_conf (cn_world z) (aput Nat.eqb c (publish_code c i p) (cn_tasks z)) (cn_locks z) (cn_readers z))).
  { destruct Hcz as [H1 H2]. split; [exact H1|]. cbn [cn_tasks]. split.
    - eexists. rewrite (aget_aput Nat.eqb Nat.eqb_eq), Nat.eqb_refl. split; [reflexivity|]. apply until_publish; [reflexivity|exact Hp|]. apply publish_topic_iff; assumption.
    - intros d k Hd. rewrite (aget_aput Nat.eqb Nat.eqb_eq). destruct (Nat.eqb d c) eqn:E; [apply Nat.eqb_eq in E; contradiction|apply H2]. }
  apply mruns_app in Hx1. destruct Hx1 as (y & Hy & Hyx). exists y. split; [exact Hyx|]. apply undisturbed_app in Hu. apply willfree_app in W3.
  eapply pending_runs; [exact Hy|apply W3|apply Hu|exact Hpd|exact Hc].
Qed.
Lemma lives_last cfg trs tr st2 : lives cfg (trs ++ [tr]) st2 -> exists st x, lives cfg trs st /\ mruns cfg (conf_on st) tr x /\ (forall c, Forall texts (events_of c tr)) /\ st2 = w_store (cn_world x).
Proof.
  intros H. inversion H as [E|trs' st tr' x Hl Hr Ht E]; [destruct trs; discriminate|]. apply app_inj_tail in E. destruct E as [-> ->]. exists st, x. auto.
Qed.
Lemma lives_keep cfg t trs tr trs2 : forall st2, lives cfg (trs ++ tr :: trs2) st2 -> Forall (no_retained_will t) (trs ++ tr :: trs2) -> Forall (undisturbed t) trs2 ->
  exists st x, lives cfg trs st /\ mruns cfg (conf_on st) tr x /\ (forall c, Forall texts (events_of c tr)) /\ look t st2 = look t (w_store (cn_world x)).
Proof.
  induction trs2 as [|tr2 trs2 IH] using rev_ind; intros st2 Hl Hw Hu.
  - destruct (lives_last _ _ _ _ Hl) as (st & x & H1 & H2 & H3 & ->). exists st, x. auto.
  - rewrite app_comm_cons, app_assoc in Hl, Hw. destruct (lives_last _ _ _ _ Hl) as (st1 & x1 & H1 & H2 & H3 & ->). apply Forall_app in Hw, Hu. destruct Hw as [Hw Hw2], Hu as [Hu Hu2].
    inversion Hw2; inversion Hu2; subst. destruct (IH _ H1 Hw Hu) as (st & x & L1 & L2 & L3 & L4). exists st, x. split; [exact L1|]. split; [exact L2|]. split; [exact L3|]. rewrite <- L4.
    refine (proj2 (calm_runs t cfg (conf_on st1) tr2 x1 H2 _ _ _)); [assumption|assumption|]. apply calm_on. eapply lives_rstore; [exact H1|exact Hw].
Qed.
(** Whenever the broker looks for retained messages that match a filter, from the answer on, it finds for this topic exactly the
    message of the PUBLISH, with the retain flag; or none, if it carried no payload. *)
Theorem C121_kept cfg trs st tr x c p pre mid post f ms :
  lives cfg trs st -> mruns cfg (conf_on st) tr x -> Forall texts (events_of c tr) ->
  Forall (no_retained_will (pb_topic p)) trs -> no_retained_will (pb_topic p) tr -> publishes_retained c p pre mid post tr ->
  topic_filter f -> matches f (pb_topic p) -> found f ms post -> filter (on_topic (pb_topic p)) ms = kept_of p.
Proof.
  intros Hl Hr Ht Hw Hw1 Hp Hf Hm Hfo. destruct (retained_calm _ _ _ _ _ _ _ _ _ _ Hl Hr Ht Hw Hw1 Hp) as (y & Hy & Hc & Hk).
  destruct Hp as (Htr & _ & _ & _ & _ & Hu & _). rewrite (calm_found _ _ _ _ _ _ _ Hy) with (5 := Hm) (6 := Hfo); auto.
  - rewrite Hk. apply kept_look.
  - rewrite Htr in Hw1. apply willfree_app in Hw1. destruct Hw1 as [_ Hw1]. change (willfree (pb_topic p) ([IStart (EPacket c (Publish p))] ++ mid ++ post)) in Hw1.
    apply willfree_app in Hw1. destruct Hw1 as [_ Hw1]. apply willfree_app in Hw1. apply Hw1.
  - apply undisturbed_app in Hu. apply Hu.
Qed.
Print Assumptions C121_kept.
(** The same in every later life, whenever the broker stopped after the answer. *)
Theorem C121_kept_over_lives cfg trs tr trs2 st2 tr2 x2 c p pre mid post f ms :
  lives cfg (trs ++ tr :: trs2) st2 -> mruns cfg (conf_on st2) tr2 x2 ->
  Forall (no_retained_will (pb_topic p)) (trs ++ tr :: trs2) -> no_retained_will (pb_topic p) tr2 -> publishes_retained c p pre mid post tr ->
  Forall (undisturbed (pb_topic p)) trs2 -> undisturbed (pb_topic p) tr2 ->
  topic_filter f -> matches f (pb_topic p) -> found f ms tr2 -> filter (on_topic (pb_topic p)) ms = kept_of p.
Proof.
  intros Hl Hr2 Hw Hw2 Hp Hu Hu2 Hf Hm Hfo. destruct (lives_keep _ _ _ _ _ _ Hl Hw Hu) as (st & x & L1 & L2 & L3 & L4).
  pose proof (lives_rstore _ _ _ _ Hl Hw) as Hst2. apply Forall_app in Hw. destruct Hw as [Hw Hw1]. inversion Hw1; subst.
  destruct (retained_calm _ _ _ _ _ _ _ _ _ _ L1 L2 (L3 c) Hw ltac:(assumption) Hp) as (y & Hy & Hc & Hk).
  assert (Hlx : look (pb_topic p) (w_store (cn_world x)) = kept_as p).
  { rewrite <- Hk. destruct Hp as (Htr & _ & _ & _ & _ & Hup & _). apply undisturbed_app in Hup. refine (proj2 (calm_runs _ _ _ _ _ Hy _ _ Hc)); [|apply Hup].
    match goal with H : no_retained_will _ tr |- _ => rewrite Htr in H; apply willfree_app in H; destruct H as [_ H];
      change (willfree (pb_topic p) ([IStart (EPacket c (Publish p))] ++ mid ++ post)) in H; apply willfree_app in H; destruct H as [_ H]; apply willfree_app in H; apply H end. }
  rewrite (calm_found _ _ _ _ _ _ _ Hr2) with (5 := Hm) (6 := Hfo); auto.
  - change (w_store (cn_world (conf_on st2))) with st2. rewrite L4, Hlx. apply kept_look.
  - apply calm_on. exact Hst2.
Qed.
Print Assumptions C121_kept_over_lives.

(** ** What a later subscriber is sent *)
(** Connection [d], whose identifier nobody else uses, subscribes to [f] and keeps the subscription. If the broker finds the
    message [m] when it looks, and the subscriber keeps up and takes what was found, it is sent [m]. *)
Definition is_sent (d : nat) (f : bytes) (m : message) (mid post : list item) : Prop :=
  exists ret n mid1 mid2, mid = mid1 ++ IStep d (OSub f n) :: mid2 /\ In (IStep d (OStore (GetRetained f) (RMessages ret))) mid2 /\ In m ret
    /\ let sent := deliveries d f (outputs_of d post) in
       (Forall (fun m => mg_qos m <> QInvalid) (ret ++ routed f (mid2 ++ post)) -> keeping_up d f ret (routed f mid2) post -> (length ret <= length sent)%nat ->
        exists q, In q sent /\ sent_as f q m).
Lemma sent_retained cfg st0 tr x d q f m pre mid post :
  mruns cfg (conf_on st0) tr x -> Forall texts (events_of d tr) -> handled d (EPacket d (Subscribe q)) pre mid post tr -> opened d pre ->
  In f (map fst (sb_payload q)) -> topic_filter f -> lone d tr -> keeps_subscription d f post ->
  (forall ms, found f ms mid -> In m ms) -> is_sent d f m mid post.
Proof.
  intros Hr Ht Hh Ho Hin Hf Hl Hk Hm. destruct (C89_delivered_from_suback_on _ _ _ _ _ _ _ _ _ Hr Ht Hh Ho Hin Hf Hl Hk) as (ret & n & mid1 & mid2 & E & Hg & H).
  assert (Hi : In m ret) by (apply Hm; exists d; rewrite E; apply in_or_app; right; right; exact Hg).
  exists ret, n, mid1, mid2. split; [exact E|]. split; [exact Hg|]. split; [exact Hi|]. intros sent Hq Hku Hlen. destruct (H Hq) as [_ H2]. destruct (H2 Hku) as [H3 _]. fold sent in H3.
  rewrite firstn_app in H3. rewrite firstn_all2 in H3 by exact Hlen. apply in_split in Hi. destruct Hi as (a & b & ->). rewrite <- !app_assoc in H3.
  apply Forall2_app_inv_r in H3. destruct H3 as (s1 & s2 & _ & H3 & ->). cbn [app] in H3. inversion H3 as [|y ? s3 ? Hs _]; subst. exists y. split; [apply in_or_app; right; left; reflexivity|exact Hs].
Qed.
Lemma in_kept p m ms : filter (on_topic (pb_topic p)) ms = kept_of p -> In m (kept_of p) -> In m ms.
Proof. intros <- H. apply filter_In in H. apply H. Qed.
Theorem C121_sent_later cfg trs st tr x c p pre mid post m d q f post1 mid2 post2 :
  lives cfg trs st -> mruns cfg (conf_on st) tr x -> (forall d, Forall texts (events_of d tr)) ->
  Forall (no_retained_will (pb_topic p)) trs -> no_retained_will (pb_topic p) tr -> publishes_retained c p pre mid post tr -> In m (kept_of p) ->
  let pre2 := pre ++ IStart (EPacket c (Publish p)) :: mid ++ post1 in
  post = post1 ++ IStart (EPacket d (Subscribe q)) :: mid2 ++ IEnd d :: post2 -> ~ In (IEnd d) mid2 -> opened d pre2 ->
  In f (map fst (sb_payload q)) -> topic_filter f -> matches f (pb_topic p) -> lone d tr -> keeps_subscription d f post2 ->
  is_sent d f m mid2 post2.
Proof.
  intros Hl Hr Ht Hw Hw1 Hp Hm pre2 Hpost Hend Ho Hin Hf Hma Hlo Hk.
  apply (sent_retained cfg st tr x d q f m pre2 mid2 post2); auto.
  - split; [|split; [apply Nat.eqb_refl|exact Hend]]. destruct Hp as (-> & _). rewrite Hpost. unfold pre2. rewrite <- !app_assoc. cbn [app]. rewrite <- !app_assoc. reflexivity.
  - intros ms (d' & Hfo). eapply in_kept; [|exact Hm]. eapply C121_kept; eauto. exists d'. rewrite Hpost. apply in_or_app. right. right. apply in_or_app. left. exact Hfo.
Qed.
Print Assumptions C121_sent_later.
Theorem C121_sent_over_lives cfg trs tr trs2 st2 tr2 x2 c p pre mid post m d q f pre2 mid2 post2 :
  lives cfg (trs ++ tr :: trs2) st2 -> mruns cfg (conf_on st2) tr2 x2 -> Forall texts (events_of d tr2) ->
  Forall (no_retained_will (pb_topic p)) (trs ++ tr :: trs2) -> no_retained_will (pb_topic p) tr2 -> publishes_retained c p pre mid post tr ->
  Forall (undisturbed (pb_topic p)) trs2 -> undisturbed (pb_topic p) tr2 -> In m (kept_of p) ->
  handled d (EPacket d (Subscribe q)) pre2 mid2 post2 tr2 -> opened d pre2 ->
  In f (map fst (sb_payload q)) -> topic_filter f -> matches f (pb_topic p) -> lone d tr2 -> keeps_subscription d f post2 ->
  is_sent d f m mid2 post2.
Proof.
  intros Hl Hr2 Ht Hw Hw2 Hp Hu Hu2 Hm Hh Ho Hin Hf Hma Hlo Hk.
  apply (sent_retained cfg st2 tr2 x2 d q f m pre2 mid2 post2); auto.
  intros ms (d' & Hfo). eapply in_kept; [|exact Hm]. eapply C121_kept_over_lives; eauto. exists d'. destruct Hh as (-> & _). apply in_or_app. right. right. apply in_or_app. left. exact Hfo.
Qed.
Print Assumptions C121_sent_over_lives.

(** ** Cases *)
Definition retainsb (t : bytes) (e : event) : bool := match e with EPacket _ (Publish p) => bytes_eqb (pb_topic p) t && pb_retain p | _ => false end.
Lemma retains_b t e : retains t e -> retainsb t e = true.
Proof. intros (c & p & -> & <- & H). cbn. rewrite H, beqb_refl. reflexivity. Qed.
Lemma undisturbed_b t tr : existsb (retainsb t) (all_events tr) = false -> undisturbed t tr.
Proof.
  intros H e Hi Hr. apply in_events in Hi. assert (existsb (retainsb t) (all_events tr) = true); [|congruence]. apply existsb_exists. exists e. split; [exact Hi|apply retains_b, Hr].
Qed.
Fixpoint settledb (t : bytes) (tr : list item) : bool :=
  match tr with
  | [] => true
  | IStart e :: tr => (negb (retainsb t e) || existsb (is_end (event_conn e)) tr) && settledb t tr
  | _ :: tr => settledb t tr
  end.
Lemma settled_b t tr : settledb t tr = true -> settled t tr.
Proof.
  induction tr as [|i tr IH]; intros H a e b E Hr; [destruct a; discriminate|]. destruct a as [|i' a]; injection E as -> ->.
  - cbn [settledb] in H. apply andb_prop in H. destruct H as [H _]. rewrite (retains_b _ _ Hr) in H. cbn in H. apply existsb_exists in H. destruct H as (j & Hj & H).
    destruct j; try discriminate. apply Nat.eqb_eq in H. subst. exact Hj.
  - eapply IH; [|reflexivity|exact Hr]. destruct i'; cbn [settledb] in H; auto. apply andb_prop in H. apply H.
Qed.
Definition will_less (e : event) : bool := match e with EFirst _ (Some (Connect k)) _ _ => negb (cf_will_flag (c_flags k)) | _ => true end.
Lemma no_retained_will_b t tr : forallb will_less (all_events tr) = true -> no_retained_will t tr.
Proof. intros H c k u a w Hi [Hd _]. apply in_events in Hi. rewrite forallb_forall in H. specialize (H _ Hi). cbn in H. rewrite Hd in H. discriminate. Qed.
Lemma confirmed_b c tr : existsb (fun i => match i with IStep d (OOut _) => Nat.eqb d c | _ => false end) tr = true -> confirmed c tr.
Proof.
  intros H. apply existsb_exists in H. destruct H as (i & Hi & H). destruct i as [|d o|]; try discriminate. destruct o; try discriminate. apply Nat.eqb_eq in H. subst. right. eexists. exact Hi.
Qed.
(** Client 1 publishes a retained message for x/y and then another; client 2 subscribes to x/+ while client 1 publishes a third message,
    which is not retained. *)
Definition ex_keep (v : string) := Examples.ex_publish AtLeastOnce (Some 5) true "x/y" v.
Definition ex_keep_moves : list move :=
  starts [ex_first 1 (ex_connect "a" true); ex_first 2 (ex_connect "b" true)] ++ rounds 40 [1; 2]%nat ++
  starts [EPacket 1 (Publish (ex_keep "u"))] ++ rounds 40 [1]%nat ++
  starts [EPacket 1 (Publish (ex_keep "v"))] ++ rounds 40 [1]%nat.
Definition ex_keep_moves2 : list move :=
  starts [ex_sub 2 "x/+"; EPacket 1 (Publish (ex_publish AtMostOnce None false "x/y" "w"))] ++ rounds 40 [2; 1]%nat ++
  starts [EOut 2 (str "x/+")] ++ rounds 40 [2]%nat.
Definition ex_keep_trace := snd (mexec ex_open (ex_keep_moves ++ ex_keep_moves2) conf_new).
Definition ex_kept : message := Mk_message (Some 5) (str "x/y") false AtLeastOnce true (Some (str "v")).
Example C121_ex : let tr := ex_keep_trace in let post := part3 1 2 tr in
  (exists x, mruns ex_open conf_new tr x) /\ lives ex_open [] mem_new /\ (forall d, Forall texts (events_of d tr)) /\ no_retained_will (str "x/y") tr
  /\ publishes_retained 1 (ex_keep "v") (part1 1 2 tr) (part2 1 2 tr) (IEnd 1 :: post) tr /\ In ex_kept (kept_of (ex_keep "v"))
  /\ topic_filter (str "x/+") /\ matches (str "x/+") (str "x/y") /\ found (str "x/+") [ex_kept] post
  /\ handled 2 (ex_sub 2 "x/+") (part1 2 1 tr) (part2 2 1 tr) (part3 2 1 tr) tr /\ (length (part1 1 2 tr ++ part2 1 2 tr) < length (part1 2 1 tr))%nat
  /\ exists q, deliveries 2 (str "x/+") (outputs_of 2 (part3 2 1 tr)) = [q] /\ sent_as (str "x/+") q ex_kept.
Proof.
  intros tr post. split; [exists (fst (mexec ex_open (ex_keep_moves ++ ex_keep_moves2) conf_new)); apply mexec_runs|]. split; [constructor|].
  split; [apply texts_all; vm_compute; reflexivity|]. split; [apply no_retained_will_b; vm_compute; reflexivity|].
  split.
  { split; [vm_compute; reflexivity|]. split; [vm_compute; reflexivity|]. split; [name_tac|]. split; [reflexivity|]. split; [apply settled_b; vm_compute; reflexivity|].
    split; [apply undisturbed_b; vm_compute; reflexivity|apply confirmed_b; vm_compute; reflexivity]. }
  split; [left; reflexivity|]. split; [filter_tac|]. split; [match_tac|].
  split; [exists 2%nat; first [eapply (nth_error_In _ 5); vm_compute; reflexivity|eapply (nth_error_In _ 6); vm_compute; reflexivity|eapply (nth_error_In _ 7); vm_compute; reflexivity|eapply (nth_error_In _ 8); vm_compute; reflexivity]|].
  split; [apply handled_parts; vm_compute; reflexivity|]. split; [apply Nat.ltb_lt; vm_compute; reflexivity|].
  eexists. split; [vm_compute; reflexivity|repeat split].
Qed.
(** The broker is stopped as soon as it has sent the PUBACK; in the next life client 2 subscribes. *)
Definition ex_keep_life1 : list move :=
  starts [ex_first 1 (ex_connect "a" true)] ++ rounds 40 [1]%nat ++ starts [EPacket 1 (Publish (ex_keep "u"))] ++ rounds 40 [1]%nat ++
  starts [EPacket 1 (Publish (ex_keep "v"))] ++ rounds 4 [1]%nat.
Definition ex_keep_tr1 := snd (mexec ex_open ex_keep_life1 conf_new).
Definition ex_keep_x1 := fst (mexec ex_open ex_keep_life1 conf_new).
Definition ex_keep_st := w_store (cn_world ex_keep_x1).
Definition ex_keep_life2 : list move :=
  starts [ex_first 2 (ex_connect "b" true)] ++ rounds 40 [2]%nat ++ starts [ex_sub 2 "x/+"] ++ rounds 40 [2]%nat ++ starts [EOut 2 (str "x/+")] ++ rounds 40 [2]%nat.
Definition ex_keep_tr2 := snd (mexec ex_open ex_keep_life2 (conf_on ex_keep_st)).
Example C121_ex2 : let n := (length ex_keep_tr1 - 5)%nat in let tr2 := ex_keep_tr2 in
  lives ex_open [ex_keep_tr1] ex_keep_st /\ (exists x, mruns ex_open (conf_on ex_keep_st) tr2 x) /\ (forall d, Forall texts (events_of d tr2))
  /\ no_retained_will (str "x/y") ex_keep_tr1 /\ no_retained_will (str "x/y") tr2 /\ undisturbed (str "x/y") tr2
  /\ publishes_retained 1 (ex_keep "v") (firstn n ex_keep_tr1) (skipn (S n) ex_keep_tr1) [] ex_keep_tr1 /\ ~ In (IEnd 1) (skipn (S n) ex_keep_tr1)
  /\ handled 2 (ex_sub 2 "x/+") (part1 2 1 tr2) (part2 2 1 tr2) (part3 2 1 tr2) tr2 /\ opened 2 (part1 2 1 tr2)
  /\ exists q, deliveries 2 (str "x/+") (outputs_of 2 (part3 2 1 tr2)) = [q] /\ sent_as (str "x/+") q ex_kept.
Proof.
  intros n tr2. split; [apply (lv_more ex_open [] mem_new ex_keep_tr1 ex_keep_x1); [constructor|exact (mexec_runs ex_open ex_keep_life1 conf_new)|apply texts_all; vm_compute; reflexivity]|].
  split; [exists (fst (mexec ex_open ex_keep_life2 (conf_on ex_keep_st))); apply mexec_runs|]. split; [apply texts_all; vm_compute; reflexivity|].
  split; [apply no_retained_will_b; vm_compute; reflexivity|]. split; [apply no_retained_will_b; vm_compute; reflexivity|]. split; [apply undisturbed_b; vm_compute; reflexivity|].
  split.
  { split; [vm_compute; reflexivity|]. split; [vm_compute; reflexivity|]. split; [name_tac|]. split; [reflexivity|]. split; [apply settled_b; vm_compute; reflexivity|].
    split; [apply undisturbed_b; vm_compute; reflexivity|apply confirmed_b; vm_compute; reflexivity]. }
  split.
  { intros H. assert (E : existsb (is_end 1) (skipn (S n) ex_keep_tr1) = true) by (apply existsb_exists; exists (IEnd 1); split; [exact H|reflexivity]). vm_compute in E. discriminate. }
  split; [apply handled_parts; vm_compute; reflexivity|]. split; [vm_compute; reflexivity|]. eexists. split; [vm_compute; reflexivity|repeat split].
Qed.
(** Without [settled] it is false: client 2 publishes a retained message while client 1 does, both are answered, and a subscriber that
    comes after client 1 was answered finds the message of client 2. The messages came in the order client 2, client 1. *)
Definition ex_unsettled : list move :=
  starts [ex_first 1 (ex_connect "a" true); ex_first 2 (ex_connect "b" true)] ++ rounds 40 [1; 2]%nat ++
  starts [EPacket 2 (Publish (ex_keep "u"))] ++ starts [EPacket 1 (Publish (ex_keep "v"))] ++ rounds 4 [1]%nat ++ rounds 40 [2; 1]%nat ++
  starts [ex_sub 2 "x/+"] ++ rounds 40 [2]%nat.
Definition ex_unsettled_trace := snd (mexec ex_open ex_unsettled conf_new).
Theorem C121_unsettled_refuted : exists tr x ms, mruns ex_open conf_new tr x
  /\ handled 1 (EPacket 1 (Publish (ex_keep "v"))) (part1 1 1 tr) (part2 1 1 tr) (part3 1 1 tr) tr /\ undisturbed (str "x/y") (part2 1 1 tr ++ IEnd 1 :: part3 1 1 tr)
  /\ no_retained_will (str "x/y") tr /\ confirmed 1 (part2 1 1 tr) /\ found (str "x/+") ms (part3 1 1 tr) /\ filter (on_topic (str "x/y")) ms <> kept_of (ex_keep "v").
Proof.
  exists ex_unsettled_trace, (fst (mexec ex_open ex_unsettled conf_new)), [Mk_message (Some 5) (str "x/y") false AtLeastOnce true (Some (str "u"))].
  split; [apply mexec_runs|]. split; [apply handled_parts; vm_compute; reflexivity|]. split; [apply undisturbed_b; vm_compute; reflexivity|].
  split; [apply no_retained_will_b; vm_compute; reflexivity|]. split; [apply confirmed_b; vm_compute; reflexivity|]. split; [|vm_compute; discriminate].
  exists 2%nat. let rec go n := first [eapply (nth_error_In _ n); vm_compute; reflexivity|go (S n)] in go 0%nat.
Qed.
Print Assumptions C121_unsettled_refuted.
