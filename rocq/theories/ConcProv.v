(** Where messages come from when handlers run concurrently. *)
From Verif Require Import Base Utf8 Codec SpecCodec Tac Maps CodecFacts Topic SpecTopic TopicFacts Property PacketProps Packets
  TopicTree TreeFacts Storage SpecStorage StorageFacts Broker SpecBroker BrokerFacts Auth Session Server SpecServer SessionFacts ServerFacts HandlerFacts
  HistoryFacts ProvenanceFacts WorldFacts StoreFacts Conc SpecConc ConcFacts ConcLocks ConcRoute ConcOwn.

(** ** The vocabulary grows with the trace *)
Lemma named_app c id a b : named c id a -> named c id (a ++ b).
Proof. intros (k & u & w & H & E). exists k, u, w. split; auto. apply in_or_app. auto. Qed.
Lemma came_named c id tr : came c id tr -> named c id tr.
Proof. intros (k & u & w & H & E). exists k, u, w. auto. Qed.
Lemma linked_app a b c d : linked a c d -> linked (a ++ b) c d.
Proof. induction 1; [constructor|]. eapply lk_step; eauto using named_app. Qed.
Lemma linked_trans tr c d e : linked tr c d -> linked tr d e -> linked tr c e.
Proof. intros H1 H2. induction H2 as [|d d' e id H IH Hd He]; [exact H1|]. apply (lk_step _ _ d' _ id); auto. Qed.
Lemma linked_sym tr c d : linked tr c d -> linked tr d c.
Proof.
  induction 1 as [|c d e id H IH Hd He]; [constructor|]. eapply linked_trans; [|exact IH]. eapply lk_step; [constructor|exact He|exact Hd].
Qed.
Lemma linked_share tr c d id : named c id tr -> named d id tr -> linked tr c d.
Proof. intros. eapply lk_step; [constructor| |]; eauto. Qed.
Lemma asked_app c f a b : asked c f a -> asked c f (a ++ b).
Proof. intros (pre & post & p & -> & H). exists pre, (post ++ b), p. rewrite <- app_assoc. auto. Qed.
Lemma sourced_app cfg a b m : sourced cfg a m -> sourced cfg (a ++ b) m.
Proof.
  intros [pre post c p r -> H1 H2|pre post c k u w t r -> H1 H2 H3 H4].
  - eapply so_publish; eauto. rewrite <- app_assoc. reflexivity.
  - eapply so_will; eauto. rewrite <- app_assoc. reflexivity.
Qed.
Lemma sourced_retain cfg tr r m : sourced cfg tr m -> sourced cfg tr (with_retain r m).
Proof.
  intros [pre post c p r0 E H1 H2|pre post c k u w t r0 E H1 H2 H3 H4]; unfold with_retain; simpl.
  - eapply so_publish; eauto.
  - eapply so_will; eauto.
Qed.

(** What is known of what the store held when the process started: where messages came from, and which filters
    an identifier had asked for. *)
Record past := Mk_past {
  pa_msg : message -> Prop;
  pa_asked : bytes -> bytes -> Prop;
  pa_retain : forall r m, pa_msg m -> pa_msg (with_retain r m);
  pa_valid : forall id f, pa_asked id f -> topic_filter f
}.
Section Provenance.
  Context (cfg : config) (P : past).
  Definition msg (tr : list item) (m : message) : Prop := pa_msg P m \/ sourced cfg tr m.
  Lemma msg_retain tr r m : msg tr m -> msg tr (with_retain r m).
  Proof. intros [H|H]; [left; apply pa_retain, H|right; apply sourced_retain, H]. Qed.
  (** [f] was asked for by the client of connection [c]. *)
  Definition wants (tr : list item) (f : bytes) (c : nat) : Prop := exists e, linked tr c e /\ (asked e f tr \/ exists id, named e id tr /\ pa_asked P id f).
  Definition of_session (tr : list item) (f : bytes) (i : nat) : Prop := exists c, mine c tr i /\ wants tr f c.
  Definition of_name (tr : list item) (f : bytes) (id : bytes) : Prop := pa_asked P id f \/ exists c, named c id tr /\ wants tr f c.
  Definition for_filter (tr : list item) (f : bytes) (m : message) : Prop := msg tr m /\ matches f (mg_topic m).
  Definition sgood (tr : list item) (i : nat) (s : session) : Prop :=
    (forall f st, aget bytes_eqb f (se_subs s) = Some st -> of_session tr f i /\ Forall (for_filter tr f) (st_retained st))
    /\ (forall x, se_will s = Some x -> msg tr (will_message x))
    /\ (exists c, mine c tr i /\ named c (se_client_id s) tr)
    /\ (cl_client_id (c_payload (se_connect s)) = [] -> created i [] tr).
  Definition ngood (tr : list item) (n : node message) : Prop :=
    forall q m, In m (log_at q n) -> msg tr m /\ level_match q (levels (mg_topic m)).
  Definition igood (tr : list item) (id : bytes) (x : inflight) : Prop :=
    of_name tr (if_topic x) id /\ exists m, msg tr m /\ delivers m (retry_publish x).
  Record stgood (tr : list item) (m : mem_store) : Prop := {
    sg_ret : forall t x, In (t, x) (ms_retained m) -> msg tr x /\ mg_topic x = t;
    sg_wills : forall id x, aget bytes_eqb id (ms_wills m) = Some x -> msg tr (will_message x);
    sg_sess : forall id st, aget bytes_eqb id (ms_sessions m) = Some st -> Forall (fun f => of_name tr f id) (ss_subscriptions st);
    sg_infl : forall id pid x, stored_inflight m id pid x -> igood tr id x
  }.
  Definition once (tr : list item) : Prop := forall i id id', created i id tr -> created i id' tr -> id = id'.
  Definition ext (tr tr' : list item) : Prop := (exists l, tr' = tr ++ l) /\ once tr'.
  Definition op_good (tr : list item) (o : sop) : Prop :=
    match o with
    | StoreRetained t (Some m) => msg tr m /\ mg_topic m = t
    | SaveSession id st => Forall (fun f => of_name tr f id) (ss_subscriptions st)
    | StoreWill _ x => msg tr (will_message x)
    | StoreInflight id _ x => igood tr id x
    | GetRetained f => validate_subscribe_filter f = None
    | _ => True
    end.
  Definition res_good (tr : list item) (o : sop) (r : sres) : Prop :=
    match o, r with
    | GetRetained f, RMessages ms => Forall (for_filter tr f) ms
    | LoadSession id, RSession (Some st) => Forall (fun f => of_name tr f id) (ss_subscriptions st)
    | GetWill _, RWill (Some x) => msg tr (will_message x)
    | GetAllInflight id, RInflights l => Forall (igood tr id) l
    | _, _ => True
    end.

  Lemma ext_app tr l : once (tr ++ l) -> ext tr (tr ++ l).
  Proof. intros H. split; eauto. Qed.
  Lemma ext_trans a b c : ext a b -> ext b c -> ext a c.
  Proof. intros [[l ->] _] [[l' ->] H]. split; auto. exists (l ++ l'). rewrite app_assoc. reflexivity. Qed.
  Lemma wants_ext a b f c : ext a b -> wants a f c -> wants b f c.
  Proof.
    intros [[l ->] _] (e & H1 & [H2|(id & H2 & H3)]); exists e; (split; [apply linked_app; exact H1|]); [left; apply asked_app, H2|right; exists id; split; [apply named_app, H2|exact H3]].
  Qed.
  Lemma mine_ext a b i c : ext a b -> mine c a i -> mine c b i.
  Proof. intros [[l ->] _]. apply mine_app. Qed.
  Lemma named_ext a b id c : ext a b -> named c id a -> named c id b.
  Proof. intros [[l ->] _]. apply named_app. Qed.
  Lemma came_ext a b id c : ext a b -> came c id a -> came c id b.
  Proof. intros [[l ->] _]. apply came_app. Qed.
  Lemma created_ext a b id i : ext a b -> created i id a -> created i id b.
  Proof. intros [[l ->] _]. apply created_app. Qed.
  Lemma msg_ext a b m : ext a b -> msg a m -> msg b m.
  Proof. intros [[l ->] _] [H|H]; [left; exact H|right; apply sourced_app, H]. Qed.
  Lemma of_session_ext a b f i : ext a b -> of_session a f i -> of_session b f i.
  Proof. intros H (c & H1 & H2). exists c. eauto using mine_ext, wants_ext. Qed.
  Lemma of_name_ext a b f i : ext a b -> of_name a f i -> of_name b f i.
  Proof. intros H [H1|(c & H1 & H2)]; [left; exact H1|right]. exists c. eauto using named_ext, wants_ext. Qed.
  Lemma for_filter_ext a b f l : ext a b -> Forall (for_filter a f) l -> Forall (for_filter b f) l.
  Proof. intros H. apply Forall_impl. intros m [H1 H2]. split; eauto using msg_ext. Qed.
  Lemma of_names_ext a b id l : ext a b -> Forall (fun f => of_name a f id) l -> Forall (fun f => of_name b f id) l.
  Proof. intros H. apply Forall_impl. eauto using of_name_ext. Qed.
  Lemma igood_ext a b id x : ext a b -> igood a id x -> igood b id x.
  Proof. intros H (H1 & m & H2 & H3). split; eauto using of_name_ext, msg_ext. Qed.
  Lemma sgood_ext a b i s : ext a b -> sgood a i s -> sgood b i s.
  Proof.
    intros H (H1 & H2 & (c & H3 & H4) & H5). split; [|split; [|split]].
    - intros f st Hf. destruct (H1 f st Hf). eauto using of_session_ext, for_filter_ext.
    - eauto using msg_ext.
    - exists c. eauto using mine_ext, named_ext.
    - eauto using created_ext.
  Qed.
  Lemma ngood_ext a b n : ext a b -> ngood a n -> ngood b n.
  Proof. intros H Hn q m Hm. destruct (Hn q m Hm). eauto using msg_ext. Qed.
  Lemma stgood_ext a b m : ext a b -> stgood a m -> stgood b m.
  Proof.
    intros H [H1 H2 H3 H4]. constructor.
    - intros t x Hx. destruct (H1 t x Hx). eauto using msg_ext.
    - eauto using msg_ext.
    - eauto using of_names_ext.
    - eauto using igood_ext.
  Qed.
  Lemma op_good_ext a b o : ext a b -> op_good a o -> op_good b o.
  Proof.
    intros H. destruct o as [| | | |t [m|]| | | | | | | | | ]; simpl; auto.
    - apply of_names_ext, H.
    - intros [? ?]. eauto using msg_ext.
    - apply msg_ext, H.
    - apply igood_ext, H.
  Qed.

  (** Connections that use the same session are of the same client. *)
  Lemma mine_linked tr c d i : once tr -> mine c tr i -> mine d tr i -> linked tr c d.
  Proof.
    intros Ho (id & H1 & H2) (id' & H3 & H4). pose proof (Ho _ _ _ H1 H3). subst id'. eapply linked_share; apply came_named; eauto.
  Qed.
  Lemma wants_linked tr f c d : linked tr c d -> wants tr f d -> wants tr f c.
  Proof. intros H (e & H1 & H2). exists e. split; auto. eapply linked_trans; eauto. Qed.
  Lemma session_wants tr f c i : once tr -> mine c tr i -> of_session tr f i -> wants tr f c.
  Proof. intros Ho Hc (d & Hd & Hw). eapply wants_linked; [|exact Hw]. eapply mine_linked; eauto. Qed.
  Lemma name_wants tr f c id : named c id tr -> of_name tr f id -> wants tr f c.
  Proof.
    intros Hc [Ho|(d & Hd & Hw)]; [exists c; split; [constructor|]; right; eauto|]. eapply wants_linked; [|exact Hw]. eapply linked_share; eauto.
  Qed.

  (** ** The store *)
  Lemma store_good tr m o : stgood tr m -> op_good tr o ->
    stgood tr (snd (mem_step m o)) /\ res_good tr o (fst (mem_step m o)).
  Proof.
    intros [H1 H2 H3 H4] Ho. assert (Hself : stgood tr m) by (constructor; assumption).
    assert (Hdel : forall {V} cid (l : list (bytes * V)) k x, aget bytes_eqb cid (adel bytes_eqb k l) = Some x -> aget bytes_eqb cid l = Some x).
    { intros V cid l k0 x. rewrite aget_adel by apply beqb_spec. destruct (bytes_eqb cid k0); [discriminate|auto]. }
    destruct o as [id st|id|id| |t [x|]|f| |id x|id|id|id pid x|id pid|id pid|id]; cbn [mem_step fst snd res_good]; (split; [|try exact I]); try exact Hself.
    - constructor; simpl; auto. intros id' st'. rewrite aget_aput by apply beqb_spec. destruct (bytes_eqb id' id) eqn:E; eauto.
      apply beqb_spec in E. subst id'. intros H. injection H as <-. exact Ho.
    - unfold mem_load_session. destruct (aget bytes_eqb id (ms_sessions m)) eqn:E; simpl; eauto.
    - constructor; simpl; auto. intros id' st' H. apply Hdel in H. eauto.
    - constructor; simpl; auto. intros t' y Hy. apply (in_aput_weak bytes_eqb beqb_spec) in Hy. destruct Hy as [Hy|Hy]; auto.
      injection Hy as -> ->. exact Ho.
    - constructor; simpl; auto. intros t' y Hy. apply (in_adel bytes_eqb beqb_spec) in Hy. apply H1, Hy.
    - simpl in Ho. unfold mem_get_retained. apply Forall_forall. intros y Hy. apply in_map_iff in Hy.
      destruct Hy as ((t & x) & <- & Hx). apply filter_In in Hx. destruct Hx as [Hx Ht]. simpl in *.
      destruct (H1 _ _ Hx) as [Hm Hto]. split; [apply msg_retain, Hm|].
      apply topic_matches_filter_iff in Ht; [|apply filter_ok_levels, Ho]. simpl. rewrite Hto. exact Ht.
    - constructor; simpl; auto. contradiction.
    - constructor; simpl; auto. intros id' st'. rewrite aget_aput by apply beqb_spec. destruct (bytes_eqb id' id) eqn:E; eauto.
      intros H. injection H as <-. exact Ho.
    - unfold mem_get_will. destruct (aget bytes_eqb id (ms_wills m)) eqn:E; simpl; eauto.
    - constructor; simpl; auto. intros id' st' H. apply Hdel in H. eauto.
    - constructor; simpl; auto. intros id' pid' y Hy. apply stored_inflight_store in Hy. destruct Hy as [Hy|(-> & -> & ->)]; eauto.
    - assert (Hp : ms_retained (mem_remove_inflight id pid m) = ms_retained m /\ ms_wills (mem_remove_inflight id pid m) = ms_wills m
        /\ ms_sessions (mem_remove_inflight id pid m) = ms_sessions m).
      { unfold mem_remove_inflight. destruct (aget bytes_eqb id (ms_inflight m)); auto. }
      destruct Hp as (P1 & P2 & P3). constructor; rewrite ?P1, ?P2, ?P3; auto.
      intros id' pid' y Hy. apply stored_inflight_remove in Hy. eauto.
    - unfold mem_get_all_inflight. apply Forall_forall. intros y Hy.
      destruct (aget bytes_eqb id (ms_inflight m)) as [l|] eqn:El; [|contradiction].
      unfold avals in Hy. apply in_map_iff in Hy. destruct Hy as ((p & z) & <- & Hin). apply (H4 id p). exists l. auto.
  Qed.
  (** ** Handlers that pass on only what was sent, and only to those who asked for it *)
  Context (c : nat).
  Definition out_good (tr : list item) (q : publish_packet) : Prop :=
    wants tr (pb_topic q) c /\ exists m, msg tr m /\ delivers m q.
  Fixpoint honest (k : code) (tr : list item) : Prop :=
    match k with
    | Finish => True
    | Emit o k => (forall d q, o = Sent d (Publish q) -> d = c /\ out_good tr q) /\ honest k tr
    | Sess i f => mine c tr i /\ forall tr' s n, ext tr tr' -> sgood tr' i s -> ngood tr' n ->
        sgood tr' i (fst (f s n)) /\ honest (snd (f s n)) tr'
    | Sub f k => wants tr f c /\ forall n, honest (k n) tr
    | Walk t k => forall ps, (forall p, In p ps -> level_match p (levels t)) -> honest (k ps) tr
    | Send p m k => (msg tr m /\ level_match p (levels (mg_topic m))) /\ honest k tr
    | Leave k | Forget _ k | Acquire _ k | Release _ k | Detach k | Attach _ k => honest k tr
    | Store o k => op_good tr o /\ forall tr' r, ext tr tr' -> res_good tr' o r -> honest (k r) tr'
    | Find id k => forall tr' r, ext tr tr' -> (forall i, r = Some i -> created i id tr') -> honest (k r) tr'
    | New id s k => (forall tr' i, ext tr tr' -> created i id tr' -> sgood tr' i s)
        /\ forall tr' i, ext tr tr' -> created i id tr' -> honest (k i) tr'
    end.
  Lemma honest_ext k : forall a b, ext a b -> honest k a -> honest k b.
  Proof.
    induction k using code_induction; intros a b He; cbn [honest]; eauto.
    - intros [H1 H2]. split; [|eauto]. intros d q E. destruct (H1 d q E) as (H3 & H4 & m & H5 & H6).
      split; auto. split; [eauto using wants_ext|]. exists m. eauto using msg_ext.
    - intros [H1 H2]. split; [eauto using mine_ext|]. intros tr' s n He'. apply H2. eapply ext_trans; eauto.
    - intros [H1 H2]. split; [eauto using wants_ext|]. eauto.
    - intros [[H1 H2] H3]. split; [|eauto]. eauto using msg_ext.
    - intros [H1 H2]. split; [eauto using op_good_ext|]. intros tr' r He'. apply H2. eapply ext_trans; eauto.
    - intros H1 tr' r He'. apply H1. eapply ext_trans; eauto.
    - intros [H1 H2]. split; intros tr' i He'; [apply H1|apply H2]; eapply ext_trans; eauto.
  Qed.

  Lemma honest_sends tr ps m k : msg tr m -> (forall p, In p ps -> level_match p (levels (mg_topic m))) -> honest k tr -> honest (sends ps m k) tr.
  Proof. intros Hm. induction ps as [|p ps IH]; intros Hp Hk; cbn [sends honest]; auto. split; [|apply IH; auto with datatypes]. split; auto with datatypes. Qed.
  Lemma honest_publish tr t m k : msg tr m -> mg_topic m = t -> honest k tr -> honest (publish t m k) tr.
  Proof.
    intros Hm <- Hk.
    assert (Hr : forall tr', ext tr tr' -> honest (route (mg_topic m) m k) tr').
    { intros tr' He. unfold route. cbn [honest]. intros ps Hps. apply honest_sends; eauto using msg_ext. cbn [honest]. eapply honest_ext; eauto. }
    assert (Hs : op_good tr (StoreRetained (mg_topic m) (Some (with_retain false m)))) by (split; [apply msg_retain, Hm|reflexivity]).
    unfold publish. destruct (mg_retain m).
    - destruct (mg_payload m) as [[|x y]|]; cbn [honest]; (split; [first [exact I|exact Hs]|intros; apply Hr; assumption]).
    - unfold route. cbn [honest]. intros ps Hps. apply honest_sends; auto.
  Qed.
  Lemma honest_id tr i k : mine c tr i -> (forall tr' id, ext tr tr' -> (exists d, mine d tr' i /\ named d id tr') -> honest (k id) tr') ->
    honest (client_id_of i k) tr.
  Proof.
    intros Hi Hk. unfold client_id_of. cbn [honest fst snd]. split; auto. intros tr' s n He Hs _. split; auto. apply Hk; auto. apply Hs.
  Qed.
  Lemma sgood_will tr i s w : sgood tr i s -> (forall x, w = Some x -> msg tr (will_message x)) -> sgood tr i (set_will w s).
  Proof. intros (H1 & H2 & H3) Hw. split; [exact H1|]. split; auto. Qed.
  Lemma honest_end tr i : mine c tr i -> honest (end_code c i) tr.
  Proof.
    intros Hi. unfold end_code. cbn [honest fst snd]. split; auto. intros tr1 s n He Hs Hn. split; [apply sgood_will; auto; discriminate|].
    assert (Hd : forall tr', honest (Detach (Emit (Closed c) Finish)) tr') by (intros; cbn [honest]; split; [discriminate|exact I]).
    destruct (se_will s) as [x|] eqn:Ex; [|apply Hd]. apply honest_publish; [apply Hs, Ex|reflexivity|].
    apply honest_id; [eauto using mine_ext|]. intros tr2 id H2 _. apply honest_id; [eauto using mine_ext|]. intros tr3 id' H3 _.
    cbn [honest op_good]. split; [exact I|]. intros. split; [discriminate|exact I].
  Qed.
  Lemma honest_respond tr r : match r with Some (Publish _) => False | _ => True end -> honest (respond c r) tr.
  Proof.
    destruct r as [p|]; [|intros; exact I]. intros H. cbn [respond honest]. split; [|exact I].
    intros d q E. injection E as -> ->. contradiction.
  Qed.
  (** What a handler that keeps subscriptions, will and identifier does to a session. *)
  Lemma sgood_same tr i s s' : sgood tr i s -> se_subs s' = se_subs s -> se_will s' = se_will s -> se_client_id s' = se_client_id s ->
    se_connect s' = se_connect s -> sgood tr i s'.
  Proof. intros (H1 & H2 & H3 & H4) E1 E2 E3 E4. unfold sgood. rewrite E1, E2, E3, E4. auto. Qed.
  Lemma sgood_sub tr i s f ms n : once tr -> mine c tr i -> sgood tr i s -> wants tr f c -> Forall (for_filter tr f) ms ->
    sgood tr i (set_subs (aput bytes_eqb f (Mk_stream ms n) (se_subs s)) s).
  Proof.
    intros Ho Hi (H1 & H2 & H3) Hf Hm. split; [|split; auto]. simpl. intros g st. rewrite aget_aput by apply beqb_spec.
    destruct (bytes_eqb g f) eqn:E; [|apply H1]. apply beqb_spec in E. subst g. intros Hs. injection Hs as <-. split; [|exact Hm]. exists c. auto.
  Qed.
  Lemma honest_subscribe_one tr i f k : mine c tr i -> wants tr f c -> validate_subscribe_filter f = None ->
    (forall tr', ext tr tr' -> honest k tr') -> honest (subscribe_one i f k) tr.
  Proof.
    intros Hi Hw Hf Hk. unfold subscribe_one. cbn [honest fst snd op_good]. split; [exact Hw|]. intros n. split; [exact Hf|].
    intros tr1 r H1 Hr. split; [eauto using mine_ext|]. intros tr2 s n' H2 Hs Hn. split; [|apply Hk; eapply ext_trans; eauto].
    assert (H12 : ext tr tr2) by (eapply ext_trans; eauto).
    apply sgood_sub; auto; [apply H2|eauto using mine_ext|eauto using wants_ext|].
    destruct r; try constructor. simpl in Hr. eapply for_filter_ext; [exact H2|exact Hr].
  Qed.
  Lemma honest_subscribe_all i fs : forall tr k, mine c tr i -> (forall f, In f (map fst fs) -> validate_subscribe_filter f = None -> wants tr f c) ->
    (forall tr' rs, ext tr tr' -> honest (k rs) tr') -> once tr -> honest (subscribe_all i fs k) tr.
  Proof.
    induction fs as [|[f o] fs IH]; intros tr k Hi Hf Hk Ho; cbn [subscribe_all].
    - apply Hk. split; auto. exists []. rewrite app_nil_r. reflexivity.
    - destruct (validate_subscribe_filter f) eqn:E.
      + apply IH; auto. intros. apply Hf; simpl; auto.
      + apply honest_subscribe_one; auto; [apply Hf; simpl; auto|]. intros tr1 H1. apply IH; [eauto using mine_ext| | |apply H1].
        * intros g Hg Hv. eapply wants_ext; [exact H1|]. apply Hf; simpl; auto.
        * intros tr2 rs H2. apply Hk. eapply ext_trans; eauto.
  Qed.
  Lemma filters_get (s : session) f : In f (subscription_filters s) -> exists st, aget bytes_eqb f (se_subs s) = Some st.
  Proof.
    intros H. assert (Hs : subscribed s f) by exact H. rewrite subscribed_aget in Hs. destruct (aget bytes_eqb f (se_subs s)); [eauto|congruence].
  Qed.
  Lemma honest_save tr i k : mine c tr i -> (forall tr', ext tr tr' -> honest k tr') -> honest (save_subscriptions i k) tr.
  Proof.
    intros Hi Hk. unfold save_subscriptions. apply honest_id; auto. intros tr1 id H1 (d & Hd & Hn). cbn [honest fst snd].
    split; [eauto using mine_ext|]. intros tr2 s n H2 Hs _. split; auto. cbn [op_good].
    assert (H12 : ext tr tr2) by (eapply ext_trans; eauto). split.
    - apply Forall_forall. intros f Hf. apply filters_get in Hf. destruct Hf as [st Hst]. destruct Hs as (Hs & _).
      destruct (Hs f st Hst) as [Hf _]. right. exists d. split; [eauto using named_ext|]. eapply session_wants; [apply H2|eauto using mine_ext|exact Hf].
    - intros tr3 r H3 _. apply Hk. eapply ext_trans; eauto.
  Qed.
  Lemma honest_simple tr i h after : mine c tr i ->
    (forall s, se_subs (snd (h s)) = se_subs s /\ se_will (snd (h s)) = se_will s /\ se_client_id (snd (h s)) = se_client_id s
      /\ se_connect (snd (h s)) = se_connect s) ->
    (forall s p, fst (h s) <> Ok (Some (Publish p))) -> (forall tr' k, ext tr tr' -> (forall tr2, ext tr' tr2 -> honest k tr2) -> honest (after k) tr') ->
    honest (simple_code c i h after) tr.
  Proof.
    intros Hi Hs Hp Ha. unfold simple_code. cbn [honest]. split; auto. intros tr1 s n H1 Hg _.
    specialize (Hs s). specialize (Hp s). destruct (h s) as [[r|e|] s']; cbn [fst snd] in *; destruct Hs as (S1 & S2 & S3 & S4); (split; [eapply sgood_same; eauto|]).
    - apply Ha; auto. intros tr2 H2. apply honest_respond. destruct r as [[]|]; try exact I. eapply Hp. reflexivity.
    - apply honest_end. eauto using mine_ext.
    - cbn [honest]. split; [discriminate|exact I].
  Qed.
  Lemma auth_same am a s : se_subs (snd (handle_auth am a s)) = se_subs s /\ se_will (snd (handle_auth am a s)) = se_will s
    /\ se_client_id (snd (handle_auth am a s)) = se_client_id s /\ se_connect (snd (handle_auth am a s)) = se_connect s /\ forall p, fst (handle_auth am a s) <> Ok (Some (Publish p)).
  Proof. unfold handle_auth. destruct am; [|repeat split; discriminate]. repeat case_match; repeat split; discriminate. Qed.
  Lemma honest_remove tr i n k : mine c tr i -> (forall tr', ext tr tr' -> honest k tr') -> honest (remove_inflight i n k) tr.
  Proof.
    intros Hi Hk. unfold remove_inflight. apply honest_id; auto. intros tr1 id H1 _. cbn [honest op_good]. split; [exact I|].
    intros tr2 r H2 _. apply Hk. eapply ext_trans; eauto.
  Qed.
  Lemma ext_refl tr : once tr -> ext tr tr.
  Proof. intros H. split; auto. exists []. rewrite app_nil_r. reflexivity. Qed.
  Lemma honest_packet tr i k : mine c tr i -> once tr ->
    (forall p, k = Publish p -> validate_publish_topic (pb_topic p) = None -> forall r, msg tr (Mk_message (pb_packet_id p) (pb_topic p) (pb_dup p) (pb_qos p) r (pb_payload p))) ->
    (forall p f, k = Subscribe p -> In f (map fst (sb_payload p)) -> validate_subscribe_filter f = None -> wants tr f c) ->
    honest (packet_code cfg c i k) tr.
  Proof.
    intros Hi Ho Hpub Hsub. pose proof (honest_end tr i Hi) as He.
    assert (Hafter : forall n tr' k', ext tr tr' -> (forall tr2, ext tr' tr2 -> honest k' tr2) -> honest (remove_inflight i n k') tr').
    { intros n tr' k' H H2. apply honest_remove; eauto using mine_ext. }
    assert (Hplain : forall tr' k', ext tr tr' -> (forall tr2, ext tr' tr2 -> honest k' tr2) -> honest k' tr').
    { intros tr' k' H H2. apply H2, ext_refl, H. }
    destruct k as [k|k|k|k|k|k|k|k|k|k|k| | |d|k]; cbn [packet_code]; try exact He;
      try (apply honest_simple; auto; try (intros; discriminate); fail).
    - unfold publish_code. destruct (validate_publish_topic (pb_topic k)) eqn:Ev; [exact He|]. specialize (Hpub k eq_refl Ev (pb_retain k)).
      assert (Hgo : forall tr' r, ext tr tr' -> honest (publish (pb_topic k) (message_of k) (match r with Some x => respond c x | None => end_code c i end)) tr' \/
                      (exists q, r = Some (Some (Publish q)))).
      { intros tr' [[[]|]|] Hx; try (left; apply honest_publish; [eapply msg_ext; [exact Hx|exact Hpub]|reflexivity|
          first [apply honest_respond; exact I|apply honest_end; eauto using mine_ext]]; fail). right. eauto. }
      assert (Hgo1 : forall tr' r, ext tr tr' -> match r with Some (Some (Publish _)) => False | _ => True end ->
                       honest (publish (pb_topic k) (message_of k) (match r with Some x => respond c x | None => end_code c i end)) tr').
      { intros tr' r Hx Hr. destruct (Hgo tr' r Hx) as [H|[q ->]]; [exact H|contradiction]. }
      pose proof (ext_refl tr Ho) as Hrf.
      destruct (pb_qos k); [apply (Hgo1 tr (Some None)); auto|destruct (pb_packet_id k) as [n|]|destruct (pb_packet_id k) as [n|]|apply (Hgo1 tr None); auto].
      + apply (Hgo1 tr (Some (Some (PubAck (Mk_ack_packet n Success None))))); auto.
      + apply (Hgo1 tr None); auto.
      + cbn [honest fst snd]. split; auto. intros tr' s n0 Hx Hs _. split; [eapply sgood_same; eauto|].
        apply (Hgo1 tr' (Some (Some (PubRec (Mk_ack_packet n Success None))))); auto.
      + apply (Hgo1 tr None); auto.
    - unfold subscribe_code. cbn [honest fst snd]. split; auto. intros tr1 s n H1 Hs _. split; auto.
      apply honest_subscribe_all; [eauto using mine_ext| | |apply H1].
      + intros f Hf Hv. eapply wants_ext; [exact H1|]. eapply Hsub; eauto.
      + intros tr2 rs H2. cbn [honest]. assert (H12 : ext tr tr2) by (eapply ext_trans; eauto). apply honest_save; [eauto using mine_ext|].
        intros tr3 _. cbn [honest]. split; [discriminate|exact I].
    - unfold unsubscribe_code. cbn [honest]. split; auto. intros tr1 s n H1 Hs _.
      destruct (unsubscribe_loop (us_payload k) (se_subs s)) as [rs subs] eqn:E. cbn [fst snd].
      destruct (unsubscribe_loop_spec _ _ _ _ E) as (_ & _ & U3 & U4 & _). split.
      + destruct Hs as (S1 & S2 & S3). split; [|split; auto]. simpl. intros f st Hf.
        destruct (in_dec bytes_dec f (us_payload k)) as [Hin|Hin]; [rewrite U3 in Hf by auto; discriminate|rewrite U4 in Hf by auto; auto].
      + apply honest_save; [eauto using mine_ext|]. intros tr2 _. cbn [honest]. split; [discriminate|exact I].
    - apply honest_respond. exact I.
    - unfold disconnect_code. cbn [honest fst snd]. split; auto. intros tr1 s n H1 Hs _. split; [apply sgood_will; auto; discriminate|].
      apply honest_id; [eauto using mine_ext|]. intros tr2 id H2 _. cbn [honest op_good]. split; [exact I|]. intros tr3 r H3 _.
      apply honest_end. eapply mine_ext; [|exact Hi]. repeat (eapply ext_trans; eauto).
    - apply honest_simple; auto.
      + intros s. pose proof (auth_same (sv_manager cfg) k s). tauto.
      + intros s. apply (auth_same (sv_manager cfg) k s).
  Qed.
  Lemma honest_out tr i f : mine c tr i -> honest (out_code c i f) tr.
  Proof.
    intros Hi. unfold out_code. cbn [honest]. split; auto. intros tr1 s n H1 Hs Hn.
    destruct (process_outgoing f s (Mk_broker n mem_new)) as [[r s']|] eqn:Ep; [|split; [exact Hs|exact I]].
    unfold process_outgoing in Ep. destruct (aget bytes_eqb f (se_subs s)) as [st|] eqn:Ef; [|discriminate]. cbn [bk_tree] in Ep.
    destruct (stream_next _ st) as [[m st']|] eqn:En; [|discriminate].
    destruct Hs as (S1 & S2 & S3). destruct (S1 f st Ef) as [Hof Hr].
    assert (Hl : Forall (for_filter tr1 f) (log_at (levels f) n)).
    { apply Forall_forall. intros x Hx. destruct (Hn _ _ Hx). split; auto. apply matches_iff. assumption. }
    destruct (stream_next_prov [] _ _ _ _ _ En Hl Hr) as [[Hm1 Hm2] Hst].
    assert (Hs' : se_subs s' = aput bytes_eqb f st' (se_subs s) /\ se_will s' = se_will s /\ (se_client_id s' = se_client_id s /\ se_connect s' = se_connect s)
       /\ forall p, r = Ok p -> p = outgoing_publish f m).
    { destruct (mg_packet_id m); [destruct (mg_qos m)|]; inv Ep; repeat split; congruence. }
    destruct Hs' as (E1 & E2 & [E3 E5] & E4).
    assert (Hg : sgood tr1 i s').
    { split; [|rewrite E2, E3, E5; auto]. rewrite E1. intros g stg. rewrite aget_aput by apply beqb_spec. destruct (bytes_eqb g f) eqn:E; [|apply S1].
      apply beqb_spec in E. subst g. intros Hx. injection Hx as <-. auto. }
    assert (Hw : wants tr1 f c) by (eapply session_wants; [apply H1|eauto using mine_ext|exact Hof]).
    destruct r as [p|e|]; cbn [fst snd]; (split; [exact Hg|]); try (cbn [honest]; split; [discriminate|exact I]).
    rewrite (E4 p eq_refl). set (q := outgoing_publish f m).
    assert (Hq : delivers m q) by (repeat split; auto).
    assert (Hout : forall tr', ext tr1 tr' -> honest (Emit (Sent c (Publish q)) Finish) tr').
    { intros tr' Hx. cbn [honest]. split; [|exact I]. intros d q0 E. injection E as <- <-. split; auto.
      split; [eapply wants_ext; eauto|]. exists m. eauto using msg_ext. }
    assert (Hi1 : mine c tr1 i) by eauto using mine_ext.
    assert (Hsto : forall pid, pb_packet_id q = Some pid ->
      honest (client_id_of i (fun id => Store (StoreInflight id pid (Mk_inflight pid (pb_topic q) (pb_payload q) (pb_qos q) (pb_dup q)))
        (fun _ => Emit (Sent c (Publish q)) Finish))) tr1).
    { intros pid Hpid. apply honest_id; auto. intros tr2 id H2 (d & Hd & Hnm). cbn [honest op_good]. split.
      - split.
        + right. exists d. split; auto. eapply wants_linked; [|eapply wants_ext; [exact H2|exact Hw]]. eapply mine_linked; [apply H2|exact Hd|eauto using mine_ext].
        + exists m. split; [eauto using msg_ext|]. destruct Hq as (Q1 & Q2 & Q3 & Q4). split; [exact Q1|]. split; [exact Q2|]. split; [exact Q3|]. simpl. congruence.
      - intros tr3 r H3 _. apply Hout. eapply ext_trans; eauto. }
    destruct (pb_packet_id q) as [pid|] eqn:Epid; [|apply Hout, ext_refl, H1].
    destruct (pb_qos q); try (apply Hout, ext_refl, H1); apply Hsto; auto.
  Qed.
  Lemma honest_emits tr l k : (forall q, In q l -> out_good tr q) -> honest k tr -> honest (emits (map (fun q => Sent c (Publish q)) l) k) tr.
  Proof.
    intros Hl Hk. induction l as [|q l IH]; cbn [map emits honest]; auto. split; [|apply IH; auto with datatypes].
    intros d q0 E. injection E as <- <-. split; auto. apply Hl. left. reflexivity.
  Qed.
  Lemma out_good_ext a b q : ext a b -> out_good a q -> out_good b q.
  Proof. intros H (H1 & m & H2 & H3). split; eauto using wants_ext, msg_ext. Qed.
  Lemma honest_restore tr i subs wl infl : once tr -> mine c tr i -> Forall (fun f => wants tr f c /\ validate_subscribe_filter f = None) subs ->
    (forall x, wl = Some x -> msg tr (will_message x)) -> Forall (fun x => out_good tr (retry_publish x)) infl ->
    honest (restore_code c i subs wl infl) tr.
  Proof.
    intros Ho Hi Hsub Hw Hinf. unfold restore_code. cbv zeta.
    set (rest := emits (map (fun x => Sent c (Publish (retry_publish x))) infl) (Attach i Finish)).
    assert (Hrest : forall tr', ext tr tr' -> honest rest tr').
    { intros tr' Hx. unfold rest. rewrite <- (map_map retry_publish (fun q => Sent c (Publish q))). apply honest_emits; [|exact I].
      intros q Hq. apply in_map_iff in Hq. destruct Hq as (x & <- & Hq). rewrite Forall_forall in Hinf. eapply out_good_ext; eauto. }
    set (wills := match wl with Some x => Sess i (fun s _ => (set_will (Some x) s, rest)) | None => rest end).
    assert (Hwills : forall tr', ext tr tr' -> honest wills tr').
    { intros tr' Hx. unfold wills. destruct wl as [x|]; [|auto]. cbn [honest fst snd]. split; [eauto using mine_ext|]. intros tr2 s n H2 Hs _.
      assert (Hx2 : ext tr tr2) by (eapply ext_trans; eauto). split; [|auto]. apply sgood_will; auto. intros y Hy. injection Hy as <-. eauto using msg_ext. }
    assert (Hall : forall fs tr', ext tr tr' -> Forall (fun f => wants tr f c /\ validate_subscribe_filter f = None) fs -> honest (restore_all i fs (Release (LSession i) wills)) tr').
    { induction fs as [|f fs IH]; intros tr' Hx Hfs; cbn [restore_all].
      - cbn [honest]. auto.
      - inversion Hfs as [|? ? [Hf1 Hf2] Hfs']; subst. apply honest_subscribe_one; auto; [eauto using mine_ext|eauto using wants_ext|].
        intros tr2 H2. apply IH; auto. eapply ext_trans; eauto. }
    destruct subs as [|f fs]; [apply Hwills, ext_refl, Ho|]. cbn [honest]. apply Hall; auto. apply ext_refl, Ho.
  Qed.
  Lemma wants_valid tr f d : wants tr f d -> validate_subscribe_filter f = None.
  Proof.
    intros (e & _ & H). assert (Hf : topic_filter f) by (destruct H as [(pre & post & p & _ & _ & _ & Hf)|(id & _ & Hf)]; [exact Hf|eapply pa_valid, Hf]).
    apply subscribe_filter_iff; [|exact Hf].
    destruct Hf as (cs & [H1 H2] & _). exists cs. auto.
  Qed.
  Lemma honest_begin tr i uuid a resume subs wl infl : once tr -> mine c tr i -> (forall tr', ext tr tr' -> created i [] tr' -> named c uuid tr') -> Forall (fun f => wants tr f c) subs ->
    (forall x, wl = Some x -> msg tr (will_message x)) -> Forall (fun x => out_good tr (retry_publish x)) infl ->
    honest (begin_code c i uuid a resume subs wl infl) tr.
  Proof.
    intros Ho Hi Hu Hsub Hw Hinf. unfold begin_code. cbn [honest]. split; auto. intros tr1 s n H1 Hs _.
    pose proof (begin_change_subs uuid resume s) as [B1 B2].
    assert (B3 : (cl_client_id (c_payload (se_connect s)) = [] /\ se_client_id (snd (begin uuid resume s)) = uuid)
      \/ (se_client_id (snd (begin uuid resume s)) = se_client_id s /\ se_connect (snd (begin uuid resume s)) = se_connect s)).
    { unfold begin. destruct (cl_client_id _); auto. }
    assert (B4 : forall q, fst (begin uuid resume s) <> Publish q) by (unfold begin; destruct (cl_client_id _); discriminate).
    destruct (begin uuid resume s) as [ack s']. cbn [fst snd] in *.
    assert (Hg : sgood tr1 i s').
    { destruct Hs as (S1 & S2 & S3 & S4). split; [rewrite B1; exact S1|]. split; [rewrite B2; exact S2|].
      destruct B3 as [[E ->]|[-> ->]]; [|split; [exact S3|exact S4]]. split; [|auto]. exists c. split; [eauto using mine_ext|].
      apply Hu; [exact H1|auto]. }
    split; [exact Hg|]. destruct a; [|cbn [honest]; split; [discriminate|exact I]].
    cbn [honest]. split; [intros d q E; injection E as -> ->; exfalso; eapply B4; reflexivity|].
    apply honest_id; [eauto using mine_ext|]. intros tr2 id H2 (d & Hd & Hn). assert (H12 : ext tr tr2) by (eapply ext_trans; eauto).
    cbn [honest op_good ss_subscriptions]. split.
    { apply Forall_forall. intros f Hf. rewrite Forall_forall in Hsub. right. exists d. split; auto.
      eapply wants_linked; [|eapply wants_ext; [exact H12|apply Hsub, Hf]]. eapply mine_linked; [apply H2|exact Hd|eauto using mine_ext]. }
    intros tr3 r H3 _. assert (H13 : ext tr tr3) by (eapply ext_trans; eauto). split; [eauto using mine_ext|].
    intros tr4 s4 n4 H4 Hs4 _. assert (H14 : ext tr tr4) by (eapply ext_trans; eauto). split; [exact Hs4|].
    assert (Hrest : forall tr', ext tr4 tr' -> honest (Release LManager (restore_code c i subs wl infl)) tr').
    { intros tr' Hx. assert (Hx' : ext tr tr') by (eapply ext_trans; eauto). cbn [honest]. apply honest_restore; [apply Hx|eauto using mine_ext| | |].
      - eapply Forall_impl; [|exact Hsub]. cbv beta. intros f Hf. split; [eauto using wants_ext|eapply wants_valid; eauto].
      - intros x Hx1. eapply msg_ext; eauto.
      - eapply Forall_impl; [|exact Hinf]. cbv beta. intros x. apply out_good_ext, Hx'. }
    destruct (se_will s4) as [x|] eqn:Ex; [|apply Hrest, ext_refl, H4].
    cbn [honest op_good]. split; [apply Hs4, Ex|]. intros tr5 r5 H5 _. apply (Hrest tr5 H5).
  Qed.
  Lemma honest_connect tr k uuid a : once tr -> In (IStart (EFirst c (Some (Connect k)) uuid a)) tr ->
    (authenticated cfg k = true -> forall x, will_of_connect k = Some x -> msg tr (will_message x)) ->
    honest (connect_code cfg c k uuid a) tr.
  Proof.
    intros Ho Hin Hw. unfold connect_code. destruct (authenticated cfg k) eqn:Ea; cbn [negb];
      [|cbn [honest]; repeat match goal with |- _ /\ _ => split end; try exact I; discriminate]. specialize (Hw eq_refl).
    cbv zeta. set (cid := cl_client_id (c_payload k)).
    assert (Hcame : came c cid tr) by (exists k, uuid, a; auto).
    assert (Huuid : cid = [] -> named c uuid tr) by (intros E; exists k, uuid, a; auto).
    assert (Hgo : forall tr1 resume subs wl infl, ext tr tr1 -> Forall (fun f => wants tr1 f c) subs ->
      (forall x, wl = Some x -> msg tr1 (will_message x)) -> Forall (fun x => out_good tr1 (retry_publish x)) infl ->
      honest (enter_code k (fun i => begin_code c i uuid a resume subs wl infl)) tr1).
    { intros tr1 resume subs wl infl H1 G1 G2 G3.
      assert (Hb : forall tr2 i, ext tr1 tr2 -> created i cid tr2 -> honest (begin_code c i uuid a resume subs wl infl) tr2).
      { intros tr2 i H2 Hc. assert (H12 : ext tr tr2) by (eapply ext_trans; eauto). apply honest_begin; [apply H2| | | | |].
        - exists cid. split; [exact Hc|eauto using came_ext].
        - intros tr3 H3 H3'. assert (H13 : ext tr tr3) by (eapply ext_trans; eauto). eapply named_ext; [exact H13|]. apply Huuid.
          eapply (proj2 H3); [eapply created_ext; [exact H3|exact Hc]|exact H3'].
        - eapply Forall_impl; [|exact G1]. cbv beta. intros f. apply wants_ext, H2.
        - intros x Hx. eapply msg_ext; [exact H2|]. auto.
        - eapply Forall_impl; [|exact G3]. cbv beta. intros x. apply out_good_ext, H2. }
      unfold enter_code. cbv zeta. fold cid. cbn [honest]. intros tr2 r H2 Hr. assert (H12 : ext tr tr2) by (eapply ext_trans; eauto).
      destruct r as [i|].
      - specialize (Hr i eq_refl). cbn [honest fst snd]. split; [exists cid; split; [exact Hr|eauto using came_ext]|].
        intros tr3 s n H3 (S1 & S2 & S3 & S4) _. assert (H13 : ext tr tr3) by (eapply ext_trans; eauto). split.
        + split; [exact S1|]. split; [simpl; intros x Hx; eapply msg_ext; [exact H13|]; auto|]. split; [exists c; split|].
          * exists cid. split; [eauto using created_ext|eauto using came_ext].
          * apply came_named. eauto using came_ext.
          * simpl. fold cid. intros <-. eauto using created_ext.
        + apply Hb; [eapply ext_trans; eauto|eauto using created_ext].
      - cbn [honest]. split.
        + intros tr3 i H3 Hc. assert (H13 : ext tr tr3) by (eapply ext_trans; eauto). split; [simpl; discriminate|]. split.
          * simpl. intros x Hx. eapply msg_ext; [exact H13|]. auto.
          * split; [exists c; split; [exists cid; split; [exact Hc|eauto using came_ext]|]; apply came_named; eauto using came_ext|].
            simpl. fold cid. intros <-. exact Hc.
        + intros tr3 i H3 Hc. apply Hb; auto. eapply ext_trans; eauto. }
    cbn [honest]. destruct (cf_clean_start (c_flags k)).
    - cbn [honest op_good]. split; [exact I|]. intros tr1 r1 H1 _. split; [exact I|]. intros tr2 r2 H2 _.
      apply Hgo; [eapply ext_trans; eauto|constructor|discriminate|constructor].
    - cbn [honest]. intros tr1 r1 H1 _. destruct r1 as [i|]; [apply Hgo; [exact H1|constructor|discriminate|constructor]|].
      cbn [honest op_good]. split; [exact I|]. intros tr2 r2 H2 Hr2. assert (H12 : ext tr tr2) by (eapply ext_trans; eauto).
      assert (Hno : honest (enter_code k (fun i => begin_code c i uuid a false [] None [])) tr2) by (apply Hgo; [exact H12|constructor|discriminate|constructor]).
      destruct r2 as [|[st|]| | | | |]; try exact Hno. cbn [res_good] in Hr2. cbn [honest op_good]. split; [exact I|]. intros tr3 r3 H3 Hr3.
      assert (H13 : ext tr tr3) by (eapply ext_trans; eauto). split; [exact I|]. intros tr4 r4 H4 Hr4. assert (H14 : ext tr tr4) by (eapply ext_trans; eauto).
      assert (Hnm : named c cid tr4) by (apply came_named; eauto using came_ext).
      apply Hgo; [exact H14| | |].
      + eapply Forall_impl; [|exact Hr2]. cbv beta. intros f Hf. eapply name_wants; [exact Hnm|]. eapply of_name_ext; [|exact Hf]. eapply ext_trans; eauto.
      + intros x Hx. destruct r3; try discriminate. cbn [res_good] in Hr3. subst w. eapply msg_ext; [exact H4|]. exact Hr3.
      + destruct r4; try constructor. cbn [res_good] in Hr4. eapply Forall_impl; [|exact Hr4]. cbv beta. intros x (Hx1 & m & Hx2 & Hx3).
        split; [eapply name_wants; eauto|]. eauto.
  Qed.
  Lemma honest_handler tr sv e : once tr -> event_conn e = c -> In (IStart e) tr -> (forall i, sv = Some i -> mine c tr i) ->
    (forall p, sv <> None -> e = EPacket c (Publish p) -> validate_publish_topic (pb_topic p) = None -> forall r, msg tr (Mk_message (pb_packet_id p) (pb_topic p) (pb_dup p) (pb_qos p) r (pb_payload p))) ->
    (forall p f, sv <> None -> e = EPacket c (Subscribe p) -> In f (map fst (sb_payload p)) -> validate_subscribe_filter f = None -> wants tr f c) ->
    (forall k u a, sv = None -> e = EFirst c (Some (Connect k)) u a -> authenticated cfg k = true -> forall x, will_of_connect k = Some x -> msg tr (will_message x)) ->
    honest (handler cfg sv e) tr.
  Proof.
    intros Ho Hc Hin Hsv Hp Hs Hw. destruct e as [d first u a|d k|d f|d|d|]; cbn [event_conn] in Hc; [subst d..|]; cbn [handler]; try exact I.
    - assert (Hcl : honest (Emit (Closed c) Finish) tr) by (cbn [honest]; split; [discriminate|exact I]).
      destruct sv as [i|]; [exact I|]. destruct first as [[]|]; try exact Hcl. apply honest_connect; auto. intros Ha. eapply Hw; eauto.
    - destruct sv as [i|]; [|exact I]. apply honest_packet; auto.
      + intros p -> Hv. apply Hp; auto. discriminate.
      + intros p f -> Hf Hv. eapply Hs; eauto. discriminate.
    - destruct sv as [i|]; [|exact I]. apply honest_out; auto.
    - destruct sv as [i|]; [|exact I]. apply honest_end; auto.
    - destruct sv as [i|]; [|exact I]. cbn [honest]. split; [discriminate|exact I].
  Qed.
End Provenance.

(** ** The invariant *)
Record prov_inv (cfg : config) (P : past) (tr : list item) (x : conf) : Prop := {
  pi_own : own_inv tr x;
  pi_heap : forall i s, nth_error (w_heap (cn_world x)) i = Some s -> sgood cfg P tr i s;
  pi_tree : ngood cfg P tr (tree x);
  pi_store : stgood cfg P tr (w_store (cn_world x));
  pi_tasks : forall c k, aget Nat.eqb c (cn_tasks x) = Some k -> honest cfg P c k tr
}.
Lemma own_once tr x : own_inv tr x -> once tr.
Proof. intros H i id id' H1 H2. eapply oi_once; eauto. Qed.
Lemma log_send_in q : forall p (m y : message) n, In y (log_at q (send_at p m n)) -> In y (log_at q n) \/ (y = m /\ p = q).
Proof.
  induction q as [|k q IH]; intros p m y n.
  - destruct p as [|l p]; simpl; unfold log_at; simpl.
    + rewrite in_app_iff. simpl. intuition.
    + destruct (TopicTree.child l n); auto.
  - destruct p as [|l p]; [auto|]. simpl. destruct (TopicTree.child l n) as [n1|] eqn:El; [|auto].
    unfold log_at. simpl. unfold TopicTree.child at 1. simpl. rewrite aget_aput by apply beqb_spec.
    destruct (bytes_eqb k l) eqn:Ek; [|auto]. apply beqb_spec in Ek. subst l. rewrite El. intros H.
    destruct (IH p m y n1 H) as [H1|[-> ->]]; auto.
Qed.
Lemma apply_tree_good cfg P c o w tr : ngood cfg P tr (bk_tree (w_broker w)) ->
  (forall p m, o = OSend p m -> msg cfg P tr m /\ level_match p (levels (mg_topic m))) -> ngood cfg P tr (bk_tree (w_broker (apply c o w))).
Proof.
  intros Hn Ho. destruct o; try exact Hn; simpl; intros q y Hy.
  - rewrite log_at_subscribe in Hy. apply Hn, Hy.
  - apply log_send_in in Hy. destruct Hy as [Hy|[-> ->]]; [apply Hn, Hy|]. apply Ho. reflexivity.
Qed.
Lemma apply_store_good cfg P c o w tr : stgood cfg P tr (w_store w) -> (forall p r, o = OStore p r -> op_good cfg P tr p) ->
  stgood cfg P tr (w_store (apply c o w)).
Proof. intros Hs Ho. destruct o; try exact Hs. apply store_good; [exact Hs|]. eapply Ho. reflexivity. Qed.
Lemma apply_heap_good cfg P c o w tr : (forall i s, nth_error (w_heap w) i = Some s -> sgood cfg P tr i s) ->
  (forall i a b, o = OSess i a b -> sgood cfg P tr i b) -> (forall id i s, o = ONew id i s -> i = length (w_heap w) /\ sgood cfg P tr i s) ->
  forall i s, nth_error (w_heap (apply c o w)) i = Some s -> sgood cfg P tr i s.
Proof.
  intros Hh Hs Hn i s. destruct o as [o|j a b|f n|t ps|p m| |o r|id r|id|id j s0|j| |l|l]; cbn [apply]; try apply Hh.
  - simpl. destruct (Nat.eq_dec i j) as [->|E].
    + intros H. assert (Hb : s = b).
      { destruct (nth_error (w_heap w) j) eqn:Ej.
        - rewrite (put_nth _ _ _ _ Ej) in H. congruence.
        - apply nth_error_None in Ej. assert (nth_error (list_set j b (w_heap w)) j = None); [|congruence].
          apply nth_error_None. rewrite list_set_length. exact Ej. }
      subst s. eapply Hs. reflexivity.
    + rewrite list_set_other by auto. apply Hh.
  - simpl. destruct (Hn _ _ _ eq_refl) as [-> Hg]. intros H. destruct (Nat.lt_ge_cases i (length (w_heap w))) as [Hl|Hl].
    + rewrite nth_error_app1 in H by exact Hl. apply Hh, H.
    + rewrite nth_error_app2 in H by exact Hl. destruct (i - length (w_heap w))%nat as [|n] eqn:E; simpl in H; [|destruct n; discriminate].
      injection H as <-. replace i with (length (w_heap w)) by lia. exact Hg.
Qed.

(** One step of a handler. *)
Lemma honest_next cfg P c k w o k1 tr : honest cfg P c k tr -> next k w = Some (o, k1) -> ext tr (tr ++ [IStep c o]) ->
  (forall i s, nth_error (w_heap w) i = Some s -> sgood cfg P tr i s) -> ngood cfg P tr (bk_tree (w_broker w)) -> stgood cfg P tr (w_store w) ->
  (forall id i, aget bytes_eqb id (w_manager w) = Some i -> created i id tr) ->
  honest cfg P c k1 (tr ++ [IStep c o])
  /\ (forall d q, o = OOut (Sent d (Publish q)) -> d = c /\ out_good cfg P c tr q)
  /\ (forall p m, o = OSend p m -> msg cfg P tr m /\ level_match p (levels (mg_topic m)))
  /\ (forall p r, o = OStore p r -> op_good cfg P tr p)
  /\ (forall i a b, o = OSess i a b -> sgood cfg P (tr ++ [IStep c o]) i b)
  /\ (forall id i s, o = ONew id i s -> i = length (w_heap w) /\ sgood cfg P (tr ++ [IStep c o]) i s).
Proof.
  intros Hk Hn He Hh Ht Hs Hm.
  destruct k as [|o0 k|i f|f k|t k|p m k|k|so k|id k|id k|id s k|i k|k|l k|l k]; cbn [Conc.next honest] in *; try discriminate.
  - injection Hn as <- <-. destruct Hk as [H1 H2]. split; [eapply honest_ext; eauto|]. repeat match goal with |- _ /\ _ => split end; try discriminate.
    intros d q E. injection E as ->. apply H1. reflexivity.
  - destruct (nth_error (w_heap w) i) as [s|] eqn:Ei; [|discriminate]. destruct (f s (bk_tree (w_broker w))) as [s' k'] eqn:Ef. injection Hn as <- <-.
    destruct Hk as [H1 H2]. destruct (H2 _ s (bk_tree (w_broker w)) He) as [H3 H4]; [eapply sgood_ext; eauto|eapply ngood_ext; eauto|].
    rewrite Ef in H3, H4. split; [exact H4|]. repeat match goal with |- _ /\ _ => split end; try discriminate.
    intros j a b E. injection E as <- <- <-. exact H3.
  - injection Hn as <- <-. split; [eapply honest_ext; [exact He|apply Hk]|]. repeat match goal with |- _ /\ _ => split end; discriminate.
  - injection Hn as <- <-. split; [eapply honest_ext; [exact He|apply Hk]|repeat match goal with |- _ /\ _ => split end; discriminate].
    intros p Hp. rewrite targets_dests in Hp. apply dests_sound in Hp. apply Hp.
  - injection Hn as <- <-. destruct Hk as [H1 H2]. split; [eapply honest_ext; eauto|]. repeat match goal with |- _ /\ _ => split end; try discriminate.
    intros p0 m0 E. injection E as <- <-. exact H1.
  - injection Hn as <- <-. split; [eapply honest_ext; eauto|repeat match goal with |- _ /\ _ => split end; discriminate].
  - injection Hn as <- <-. destruct Hk as [H1 H2]. split.
    + apply H2; [exact He|]. apply store_good; [eapply stgood_ext; eauto|eapply op_good_ext; eauto].
    + repeat match goal with |- _ /\ _ => split end; try discriminate. intros p r E. injection E as <- _. exact H1.
  - injection Hn as <- <-. split; [|repeat match goal with |- _ /\ _ => split end; discriminate]. apply Hk; [exact He|].
    intros i E. eapply created_ext; [exact He|]. apply Hm, E.
  - injection Hn as <- <-. split; [eapply honest_ext; eauto|repeat match goal with |- _ /\ _ => split end; discriminate].
  - injection Hn as <- <-. destruct Hk as [H1 H2].
    assert (Hc : created (length (w_heap w)) id (tr ++ [IStep c (ONew id (length (w_heap w)) s)])) by (exists c, s; apply in_or_app; right; left; reflexivity).
    split; [apply H2; auto|]. repeat match goal with |- _ /\ _ => split end; try discriminate.
    intros id0 i s0 E. injection E as <- <- <-. split; [reflexivity|]. apply H1; auto.
  - injection Hn as <- <-. split; [eapply honest_ext; eauto|repeat match goal with |- _ /\ _ => split end; discriminate].
  - injection Hn as <- <-. split; [eapply honest_ext; eauto|repeat match goal with |- _ /\ _ => split end; discriminate].
  - injection Hn as <- <-. split; [eapply honest_ext; eauto|repeat match goal with |- _ /\ _ => split end; discriminate].
  - injection Hn as <- <-. split; [eapply honest_ext; eauto|repeat match goal with |- _ /\ _ => split end; discriminate].
Qed.
Lemma prov_ext cfg P tr x j x1 : prov_inv cfg P tr x -> own_inv (tr ++ [j]) x1 -> cn_world x1 = cn_world x ->
  (forall c k, aget Nat.eqb c (cn_tasks x1) = Some k -> honest cfg P c k (tr ++ [j])) -> prov_inv cfg P (tr ++ [j]) x1.
Proof.
  intros Hp Ho Hw Hk. assert (He : ext tr (tr ++ [j])) by (apply ext_app; eapply own_once; eauto).
  constructor; auto; unfold tree; rewrite Hw.
  - intros i s Hs. eapply sgood_ext; [exact He|]. eapply pi_heap; eauto.
  - eapply ngood_ext; [exact He|]. apply (pi_tree _ _ _ _ Hp).
  - eapply stgood_ext; [exact He|]. apply (pi_store _ _ _ _ Hp).
Qed.
Lemma prov_step {st0} cfg P tr x m x1 j : mruns cfg (conf_on st0) tr x -> (forall c, Forall texts (events_of c (tr ++ [j]))) ->
  prov_inv cfg P tr x -> mstep cfg x m = Some (x1, j) -> prov_inv cfg P (tr ++ [j]) x1.
Proof.
  intros Hr Htx Hp Hs. pose proof (own_step _ _ _ _ _ _ (pi_own _ _ _ _ Hp) Hs) as Ho1.
  pose proof (own_once _ _ Ho1) as Honce. assert (He : ext tr (tr ++ [j])) by (apply ext_app; exact Honce).
  apply mstep_inv in Hs.
  destruct Hs as [(e & -> & -> & Hne & Hn & ->)|[(d & -> & -> & Hd & ->)|(d & k0 & o & k1 & -> & -> & Hd & Hn & Hm & ->)]].
  - apply prov_ext with x; auto. cbn [cn_tasks]. intros c k Hk. destruct (Nat.eq_dec (event_conn e) c) as [E|E].
    2:{ rewrite tasks_other in Hk by exact E. eapply honest_ext; [exact He|]. eapply pi_tasks; eauto. }
    subst c. rewrite (aget_put_same _ nateqb_spec) in Hk. injection Hk as <-. set (c := event_conn e) in *.
    assert (Ht0 : Forall texts (events_of c tr)) by (specialize (Htx c); rewrite events_app in Htx; apply Forall_app in Htx; apply Htx).
    assert (Hte : texts e).
    { specialize (Htx c). rewrite events_app in Htx. apply Forall_app in Htx. destruct Htx as [_ H]. unfold events_of in H. cbn [flat_map] in H.
      rewrite event_of_conn in H by exact Hne. unfold c in H. rewrite Nat.eqb_refl in H. simpl in H. inversion H; assumption. }
    pose proof (open_conns cfg c tr x Hr Ht0 Hn) as Hop.
    apply honest_handler; auto.
    + apply in_or_app. right. left. reflexivity.
    + intros i Hi. apply mine_app. eapply oi_conns; [apply (pi_own _ _ _ _ Hp)|exact Hi].
    + intros p Hsv Ee Hv r. right. eapply so_publish; [rewrite Ee; reflexivity| |].
      * apply Hop. destruct (aget Nat.eqb c (w_conns (cn_world x))); [eauto|congruence].
      * apply publish_topic_iff; [|exact Hv]. rewrite Ee in Hte. exact Hte.
    + intros p f Hsv Ee Hf Hv. exists c. split; [constructor|]. left. exists tr, [], p. rewrite Ee. split; [reflexivity|]. split; [|split; [exact Hf|]].
      * apply Hop. destruct (aget Nat.eqb c (w_conns (cn_world x))); [eauto|congruence].
      * apply subscribe_filter_iff; [|exact Hv]. rewrite Ee in Hte. simpl in Hte. apply in_map_iff in Hf. destruct Hf as (fo & <- & Hf).
        rewrite Forall_forall in Hte. apply Hte, Hf.
    + intros k u a Hsv Ee Ha y Hy. unfold will_of_connect in Hy. destruct (cf_will_flag (c_flags k)) eqn:Ef; simpl in Hy; [|discriminate].
      destruct (cl_will_topic (c_payload k)) as [t|] eqn:Et; [|discriminate]. injection Hy as <-. unfold will_message. simpl.
      right. eapply so_will; [rewrite Ee; reflexivity| | |exact Ef|exact Et].
      * intros Hopen. apply Hop in Hopen. destruct Hopen as [i Hi]. congruence.
      * apply authenticated_iff. exact Ha.
  - apply prov_ext with x; auto. cbn [cn_tasks]. intros c k Hk. destruct (Nat.eq_dec d c) as [<-|E].
    + rewrite (aget_del_same _ nateqb_spec) in Hk. discriminate.
    + rewrite tasks_del in Hk by exact E. eapply honest_ext; [exact He|]. eapply pi_tasks; eauto.
  - destruct Hp as [Hown Hheap Htree Hstore Htasks]. pose proof (Htasks _ _ Hd) as Hk.
    destruct (honest_next _ _ _ _ _ _ _ _ Hk Hn He Hheap Htree Hstore (oi_manager _ _ Hown)) as (N1 & N2 & N3 & N4 & N5 & N6).
    constructor; auto; cbn [cn_world cn_tasks].
    + apply apply_heap_good; auto. intros i s H. eapply sgood_ext; eauto.
    + unfold tree. cbn [cn_world]. apply apply_tree_good; [eapply ngood_ext; eauto|]. intros p m0 E. destruct (N3 p m0 E). split; auto. eapply msg_ext; eauto.
    + apply apply_store_good; [eapply stgood_ext; eauto|]. intros p r E. eapply op_good_ext; eauto.
    + intros c k Hc. destruct (Nat.eq_dec d c) as [<-|E].
      * rewrite (aget_put_same _ nateqb_spec) in Hc. injection Hc as <-. exact N1.
      * rewrite tasks_other in Hc by exact E. eapply honest_ext; eauto.
Qed.
Lemma prov_conf_on cfg P st0 : stgood cfg P [] st0 -> prov_inv cfg P [] (conf_on st0).
Proof.
  intros Hst. constructor; try discriminate.
  - apply own_new.
  - intros i s H. destruct i; discriminate.
  - intros q m H. unfold tree, log_at in H. destruct q; simpl in H; contradiction.
  - exact Hst.
Qed.
Lemma prov_runs {st0} cfg P x tr x' : mruns cfg x tr x' -> forall pre, mruns cfg (conf_on st0) pre x -> (forall c, Forall texts (events_of c (pre ++ tr))) ->
  prov_inv cfg P pre x -> prov_inv cfg P (pre ++ tr) x'.
Proof.
  induction 1 as [x|x m x1 i tr x2 Hs Hr IH]; intros pre Hpre Ht Hi; [rewrite app_nil_r; exact Hi|].
  change (i :: tr) with ([i] ++ tr) in *. rewrite app_assoc in *. apply IH; auto.
  - apply mruns_app. exists x. split; [exact Hpre|]. econstructor; [exact Hs|constructor].
  - eapply prov_step; eauto. intros c. specialize (Ht c). rewrite events_app in Ht. apply Forall_app in Ht. apply Ht.
Qed.
Lemma delivered_at {st0} cfg P pre c d q post x : mruns cfg (conf_on st0) (pre ++ IStep c (OOut (Sent d (Publish q))) :: post) x ->
  stgood cfg P [] st0 -> (forall e, Forall texts (events_of e pre)) -> d = c /\ out_good cfg P c pre q.
Proof.
  intros Hr Hst Ht. destruct (step_at _ _ _ _ _ _ _ Hr) as (y & k & k1 & H1 & H2 & H3 & _).
  assert (Hp : prov_inv cfg P pre y) by (apply (@prov_runs st0 cfg P _ _ _ H1 []); auto; [constructor|apply prov_conf_on, Hst]).
  pose proof (pi_tasks _ _ _ _ Hp _ _ H2) as Hk. destruct k; cbn [Conc.next] in H3; try discriminate.
  - injection H3 as -> _. destruct Hk as [Hk _]. apply Hk. reflexivity.
  - destruct (nth_error _ _); [|discriminate]. destruct (f _ _). discriminate.
Qed.
(** Who subscribes in the tree of topics has asked for the filter. *)
Lemma subscribed_at {st0} cfg P pre c f n post x : mruns cfg (conf_on st0) (pre ++ IStep c (OSub f n) :: post) x ->
  stgood cfg P [] st0 -> (forall e, Forall texts (events_of e pre)) -> wants P pre f c.
Proof.
  intros Hr Hst Ht. destruct (step_at _ _ _ _ _ _ _ Hr) as (y & k & k1 & H1 & H2 & H3 & _).
  assert (Hp : prov_inv cfg P pre y) by (apply (@prov_runs st0 cfg P _ _ _ H1 []); auto; [constructor|apply prov_conf_on, Hst]).
  pose proof (pi_tasks _ _ _ _ Hp _ _ H2) as Hk. destruct k; cbn [Conc.next] in H3; try discriminate.
  - destruct (nth_error _ _); [|discriminate]. destruct (f0 _ _). discriminate.
  - injection H3 as -> _. apply Hk.
Qed.
(** The first process has an empty store. *)
Definition no_past : past := Mk_past (fun _ => False) (fun _ _ => False) (fun _ _ H => H) (fun _ _ H => match H with end).
Lemma stgood_new cfg P : stgood cfg P [] mem_new.
Proof. constructor; try discriminate; [intros t x []|]. intros id pid x (l & Hl & _). discriminate. Qed.
(** A store whose entries have some origin. *)
Class Sane (cfg : config) (st : mem_store) : Prop := sane : exists P, stgood cfg P [] st.
#[export] Instance sane_new cfg : Sane cfg mem_new.
Proof. exists no_past. apply stgood_new. Qed.
