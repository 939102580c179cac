(** What the broker writes when handlers run concurrently. *)
From Verif Require Import Base Utf8 Codec SpecCodec Property SpecProperty PacketProps Packets SpecPackets Tac Maps CodecFacts
  Topic SpecTopic TopicFacts TopicTree TreeFacts Storage SpecStorage StorageFacts Broker SpecBroker BrokerFacts Auth Session Server
  SpecServer SessionFacts ServerFacts HandlerFacts HistoryFacts ProvenanceFacts SpecOutput OutputFacts
  Conc SpecConc ConcFacts ConcLocks ConcRoute ConcOwn ConcProv SpecLives ConcLives ConcNetFacts SpecConcOutput.

Lemma bears_version_app id v a b : bears_version id v a -> bears_version id v (a ++ b).
Proof. intros (d & k & u & x & H & E). exists d, k, u, x. split; [apply in_or_app; auto|exact E]. Qed.
Lemma bears_version_ext a b id v : ext a b -> bears_version id v a -> bears_version id v b.
Proof. intros [[l ->] _]. apply bears_version_app. Qed.

(** Sessions have the version of a client that came with their identifier. *)
Definition vgood (tr : list item) (i : nat) (s : session) : Prop :=
  exists id, created i id tr /\ bears_version id (c_protocol_version (se_connect s)) tr.
Lemma vgood_ext a b i s : ext a b -> vgood a i s -> vgood b i s.
Proof. intros H (id & H1 & H2). exists id. eauto using created_ext, bears_version_ext. Qed.
Lemma vgood_same tr i s s' : vgood tr i s -> se_connect s' = se_connect s -> vgood tr i s'.
Proof. intros (id & H) E. exists id. rewrite E. exact H. Qed.

Section Output.
  Context (c : nat).
  Definition fine (tr : list item) (k : packet) : Prop :=
    match k with
    | Publish b => pb_properties b = None
    | _ => exists id v, came c id tr /\ bears_version id v tr /\ proper v k
    end.
  Lemma fine_ext a b k : ext a b -> fine a k -> fine b k.
  Proof. intros H. destruct k; cbn [fine]; auto; intros (id & v & H1 & H2 & H3); exists id, v; eauto using came_ext, bears_version_ext. Qed.
  Lemma fine_any tr i s k : once tr -> mine c tr i -> vgood tr i s -> (forall b, k <> Publish b) -> proper (c_protocol_version (se_connect s)) k -> fine tr k.
  Proof.
    intros Ho (id & H1 & H2) (id' & H3 & H4) Hk Hp. pose proof (Ho _ _ _ H1 H3). subst id'.
    assert (H : exists id v, came c id tr /\ bears_version id v tr /\ proper v k) by eauto. destruct k; try exact H. exfalso. eapply Hk. reflexivity.
  Qed.
  Lemma came_version tr id : came c id tr -> exists v, bears_version id v tr.
  Proof. intros (k & u & a & H & E). exists (c_protocol_version k), c, k, u, a. auto. Qed.
  Lemma fine_plain tr i k : mine c tr i -> (forall v, proper v k) -> (forall b, k <> Publish b) -> fine tr k.
  Proof.
    intros (id & _ & H2) Hp Hk. destruct (came_version _ _ H2) as [v Hv].
    assert (H : exists id v, came c id tr /\ bears_version id v tr /\ proper v k) by eauto. destruct k; try exact H. exfalso. eapply Hk. reflexivity.
  Qed.

  Fixpoint decent (k : code) (tr : list item) : Prop :=
    match k with
    | Finish => True
    | Emit o k => (forall d q, o = Sent d q -> d = c /\ fine tr q) /\ decent k tr
    | Sess i f => mine c tr i /\ forall tr' s n, ext tr tr' -> vgood tr' i s -> vgood tr' i (fst (f s n)) /\ decent (snd (f s n)) tr'
    | Sub _ k => forall n, decent (k n) tr
    | Walk _ k => forall ps, decent (k ps) tr
    | Send _ _ k | Leave k | Forget _ k | Acquire _ k | Release _ k | Detach k | Attach _ k => decent k tr
    | Store _ k => forall r, decent (k r) tr
    | Find id k => forall tr' r, ext tr tr' -> (forall i, r = Some i -> created i id tr') -> decent (k r) tr'
    | New id s k => forall tr' i, ext tr tr' -> created i id tr' -> vgood tr' i s /\ decent (k i) tr'
    end.
  Lemma decent_ext k : forall a b, ext a b -> decent k a -> decent k b.
  Proof.
    induction k using code_induction; intros a b He; cbn [decent]; eauto.
    - intros [H1 H2]. split; [|eauto]. intros d q E. destruct (H1 d q E). split; auto. eapply fine_ext; eauto.
    - intros [H1 H2]. split; [eauto using mine_ext|]. intros tr' s n He'. apply H2. eapply ext_trans; eauto.
    - intros H1 tr' r He'. apply H1. eapply ext_trans; eauto.
    - intros H1 tr' i He'. apply H1. eapply ext_trans; eauto.
  Qed.
  Lemma decent_quiet tr o k : (forall d q, o <> Sent d q) -> decent k tr -> decent (Emit o k) tr.
  Proof. intros Ho Hk. cbn [decent]. split; [|exact Hk]. intros d q E. exfalso. eapply Ho, E. Qed.
  Lemma decent_say tr q k : fine tr q -> decent k tr -> decent (Emit (Sent c q) k) tr.
  Proof. intros Hq Hk. cbn [decent]. split; [|exact Hk]. intros d q' E. injection E as <- <-. auto. Qed.
  Lemma decent_read tr i (f : session -> node message -> session * code) : mine c tr i -> (forall s n, se_connect (fst (f s n)) = se_connect s) ->
    (forall tr' s n, ext tr tr' -> vgood tr' i s -> decent (snd (f s n)) tr') -> decent (Sess i f) tr.
  Proof. intros Hi Hs Hk. cbn [decent]. split; [exact Hi|]. intros tr' s n He Hg. split; [eapply vgood_same; eauto|auto]. Qed.
  Lemma decent_sends tr ps m k : decent k tr -> decent (sends ps m k) tr.
  Proof. intros H. induction ps; cbn [sends decent]; auto. Qed.
  Lemma decent_publish tr t m k : decent k tr -> decent (publish t m k) tr.
  Proof.
    intros H. assert (Hr : decent (route t m k) tr) by (unfold route; cbn [decent]; intros ps; apply decent_sends; exact H).
    unfold publish. destruct (mg_retain m); [|exact Hr]. destruct (mg_payload m) as [[|x y]|]; cbn [decent]; intros; exact Hr.
  Qed.
  Lemma decent_id tr i k : mine c tr i -> (forall id, decent (k id) tr) -> decent (client_id_of i k) tr.
  Proof. intros Hi Hk. apply decent_read; auto. intros tr' s n He _. eapply decent_ext; [exact He|]. apply Hk. Qed.
  Lemma decent_closed tr : decent (Detach (Emit (Closed c) Finish)) tr.
  Proof. apply (decent_quiet tr (Closed c) Finish); [discriminate|exact I]. Qed.
  Lemma decent_crashed tr : decent (Detach (Emit (Crashed c) Finish)) tr.
  Proof. apply (decent_quiet tr (Crashed c) Finish); [discriminate|exact I]. Qed.
  Lemma decent_end tr i : mine c tr i -> decent (end_code c i) tr.
  Proof.
    intros Hi. unfold end_code. apply decent_read; auto. intros tr1 s n He _. pose proof (mine_ext _ _ _ _ He Hi) as Hi1. cbn [snd].
    destruct (se_will s); [|apply decent_closed]. apply decent_publish. apply decent_id; auto. intros id. apply decent_id; auto. intros id'.
    cbn [decent]. intros _. apply decent_closed.
  Qed.
  Lemma decent_respond tr r : (forall q, r = Some q -> fine tr q) -> decent (respond c r) tr.
  Proof. destruct r as [q|]; [|intros; exact I]. intros H. apply decent_say; [apply H; reflexivity|exact I]. Qed.
  Lemma decent_subscribe_one tr i f k : mine c tr i -> decent k tr -> decent (subscribe_one i f k) tr.
  Proof.
    intros Hi Hk. unfold subscribe_one. cbn [decent]. intros n r. apply decent_read; auto. intros tr' s n' He _. eapply decent_ext; eauto.
  Qed.
  Lemma decent_subscribe_all i fs : forall tr k, mine c tr i -> (forall rs, Forall (fun r => r = GrantedQoS0 \/ r = TopicFilterInvalid) rs -> decent (k rs) tr) ->
    decent (subscribe_all i fs k) tr.
  Proof.
    induction fs as [|[f o] fs IH]; intros tr k Hi Hk; cbn [subscribe_all]; [apply Hk; constructor|].
    destruct (validate_subscribe_filter f).
    - apply IH; auto.
    - apply decent_subscribe_one; auto.
  Qed.
  Lemma decent_save tr i k : mine c tr i -> decent k tr -> decent (save_subscriptions i k) tr.
  Proof.
    intros Hi Hk. unfold save_subscriptions. apply decent_id; auto. intros id. apply decent_read; auto. intros tr' s n He _.
    cbn [snd decent]. intros _. eapply decent_ext; eauto.
  Qed.
  Lemma decent_simple tr i h after : mine c tr i -> (forall s, se_connect (snd (h s)) = se_connect s) ->
    (forall s x, fst (h s) = Ok (Some x) -> (forall v, proper v x) /\ forall b, x <> Publish b) ->
    (forall tr' k, ext tr tr' -> decent k tr' -> decent (after k) tr') -> decent (simple_code c i h after) tr.
  Proof.
    intros Hi Hs Hx Ha. unfold simple_code. cbn [decent]. split; [exact Hi|]. intros tr1 s n He Hg. specialize (Hs s). specialize (Hx s).
    pose proof (mine_ext _ _ _ _ He Hi) as Hi1.
    destruct (h s) as [[r|e|] s']; cbn [fst snd] in *; (split; [eapply vgood_same; eauto|]).
    - apply Ha; [exact He|]. apply decent_respond. intros q ->. destruct (Hx q eq_refl). eapply fine_plain; eauto.
    - apply decent_end, Hi1.
    - apply decent_crashed.
  Qed.
  Lemma decent_remove tr i n k : mine c tr i -> decent k tr -> decent (remove_inflight i n k) tr.
  Proof. intros Hi Hk. unfold remove_inflight. apply decent_id; auto. intros id. cbn [decent]. auto. Qed.

  Lemma decent_packet cfg tr i k : mine c tr i -> received k -> decent (packet_code cfg c i k) tr.
  Proof.
    intros Hi Hr. pose proof (decent_end tr i Hi) as He.
    assert (Hafter : forall n tr' k', ext tr tr' -> decent k' tr' -> decent (remove_inflight i n k') tr').
    { intros n tr' k' H H2. apply decent_remove; eauto using mine_ext. }
    destruct k as [k|k|k|k|k|k|k|k|k|k|k| | |d|k]; cbn [packet_code]; try exact He.
    - unfold publish_code. destruct (validate_publish_topic (pb_topic k)); [exact He|]. apply received_publish in Hr. destruct Hr as [Hr _].
      destruct (pb_qos k).
      + apply decent_publish. exact I.
      + destruct (pb_packet_id k) as [n|]; [|contradiction]. apply decent_publish. apply decent_respond. intros q E. injection E as <-.
        eapply fine_plain; [exact Hi| |discriminate]. intros v. cbn. auto.
      + destruct (pb_packet_id k) as [n|]; [|contradiction]. apply decent_read; auto. intros tr1 s n1 H1 _. cbn [snd]. apply decent_publish. apply decent_respond.
        intros q E. injection E as <-. eapply fine_plain; [eapply mine_ext; eauto| |discriminate]. intros v. cbn. auto.
      + destruct (pb_packet_id k); contradiction.
    - apply decent_simple; auto. intros s x E. discriminate.
    - apply decent_simple; auto. intros s x E. injection E as <-. split; [|discriminate]. intros v. cbn. split; auto. eapply received_ack; [|exact Hr]. auto.
    - apply decent_simple; auto. intros s x E. injection E as <-. split; [|discriminate]. intros v. cbn. split; auto. eapply received_ack; [|exact Hr]. auto.
    - apply decent_simple; auto. intros s x E. discriminate.
    - unfold subscribe_code. cbn [decent]. split; [exact Hi|]. intros tr1 s n H1 Hg. split; [exact Hg|]. cbn [snd]. apply received_subscribe in Hr.
      pose proof (mine_ext _ _ _ _ H1 Hi) as Hi1. apply decent_subscribe_all; auto. intros rs Hrs. cbn [decent]. apply decent_save; auto.
      apply decent_say; [|exact I]. eapply fine_any; [apply H1|exact Hi1|exact Hg|discriminate|]. cbn. split; auto. split; [apply Hr|]. auto.
    - unfold unsubscribe_code. cbn [decent]. split; [exact Hi|]. intros tr1 s n H1 Hg. apply received_unsubscribe in Hr.
      pose proof (mine_ext _ _ _ _ H1 Hi) as Hi1. destruct (unsubscribe_loop _ _) as [rs subs]. cbn [fst snd].
      split; [eapply vgood_same; [exact Hg|reflexivity]|]. apply decent_save; auto.
      apply decent_say; [|exact I]. eapply fine_any; [apply H1|exact Hi1|exact Hg|discriminate|]. cbn. auto.
    - apply decent_respond. intros q E. injection E as <-. eapply fine_plain; [exact Hi|intros; exact I|discriminate].
    - unfold disconnect_code. apply decent_read; auto. intros tr1 s n H1 _. pose proof (mine_ext _ _ _ _ H1 Hi) as Hi1. cbn [snd].
      apply decent_id; auto. intros id. cbn [decent]. intros _. apply decent_end, Hi1.
    - apply decent_simple; auto.
      + intros s. apply (auth_same (sv_manager cfg) k s).
      + intros s x E. destruct x; try (exfalso; revert E; unfold handle_auth; destruct (sv_manager cfg); [|discriminate]; repeat case_match; discriminate).
        split; [intros; exact I|discriminate].
  Qed.
  Lemma decent_out tr i f : mine c tr i -> decent (out_code c i f) tr.
  Proof.
    intros Hi. unfold out_code. cbn [decent]. split; [exact Hi|]. intros tr1 s n H1 Hg. pose proof (mine_ext _ _ _ _ H1 Hi) as Hi1.
    destruct (process_outgoing f s (Mk_broker n mem_new)) as [[r s']|] eqn:Ep; [|split; [exact Hg|exact I]].
    destruct (outgoing_parts _ _ _ _ _ Ep) as (_ & _ & Hc & Hp).
    destruct r as [p|e|]; cbn [fst snd]; (split; [eapply vgood_same; eauto|]); try apply decent_crashed.
    assert (Hout : decent (Emit (Sent c (Publish p)) Finish) tr1).
    { apply decent_say; [|exact I]. destruct (Hp p eq_refl) as (m & ->). reflexivity. }
    destruct (pb_packet_id p); [|exact Hout]. destruct (pb_qos p); try exact Hout; apply decent_id; auto; intros id; cbn [decent]; intros _; exact Hout.
  Qed.
  Lemma decent_restore tr i subs wl infl : mine c tr i -> decent (restore_code c i subs wl infl) tr.
  Proof.
    intros Hi. unfold restore_code. cbv zeta. set (rest := emits _ _).
    assert (Hrest : decent rest tr).
    { unfold rest. induction infl as [|x infl IH]; [exact I|]. cbn [map emits]. apply decent_say; [reflexivity|exact IH]. }
    set (wills := match wl with Some _ => _ | None => _ end).
    assert (Hwills : decent wills tr).
    { unfold wills. destruct wl; [|exact Hrest]. apply decent_read; auto. intros tr' s n He _. eapply decent_ext; eauto. }
    destruct subs as [|f fs]; [exact Hwills|]. cbn [decent]. generalize (f :: fs). intros l. induction l as [|g l IH]; cbn [restore_all]; [exact Hwills|].
    apply decent_subscribe_one; auto.
  Qed.
  Lemma decent_begin tr i uuid a resume subs wl infl : mine c tr i -> wf_str uuid -> decent (begin_code c i uuid a resume subs wl infl) tr.
  Proof.
    intros Hi Hu. unfold begin_code. cbn [decent]. split; [exact Hi|]. intros tr1 s n H1 Hg. pose proof (mine_ext _ _ _ _ H1 Hi) as Hi1.
    assert (Hack : fine tr1 (fst (begin uuid resume s))).
    { eapply fine_any; [apply H1|exact Hi1|exact Hg|unfold begin; destruct (cl_client_id _); discriminate|].
      unfold begin. destruct (cl_client_id _); cbn; (split; [reflexivity|]); [|exact I]. destruct (supports_properties _); cbn; [|exact I]. eauto. }
    assert (Hv : vgood tr1 i (snd (begin uuid resume s))).
    { destruct Hg as (id & G1 & G2). exists id. rewrite begin_version. auto. }
    destruct (begin uuid resume s) as [ack s']. cbn [fst snd] in *. split; [exact Hv|].
    destruct a; [|apply (decent_quiet tr1 (Closed c) Finish); [discriminate|exact I]].
    apply decent_say; [exact Hack|]. apply decent_id; auto. intros id. cbn [decent]. intros _. split; [exact Hi1|]. intros tr2 s2 n2 H2 Hg2. split; [exact Hg2|]. cbn [snd].
    pose proof (mine_ext _ _ _ _ H2 Hi1) as Hi2. destruct (se_will s2); cbn [decent]; intros; apply decent_restore, Hi2.
  Qed.
  Lemma decent_connect cfg tr k uuid a : In (IStart (EFirst c (Some (Connect k)) uuid a)) tr -> wf_str uuid -> decent (connect_code cfg c k uuid a) tr.
  Proof.
    intros Hin Hu. set (cid := presented k).
    assert (Hcame : came c cid tr) by (exists k, uuid, a; auto).
    assert (Hver : bears_version cid (c_protocol_version k) tr) by (exists c, k, uuid, a; auto).
    unfold connect_code. destruct (negb (authenticated cfg k)).
    { apply decent_say; [|apply (decent_quiet tr (Closed c) Finish); [discriminate|exact I]].
      exists cid, (c_protocol_version k). split; [exact Hcame|]. split; [exact Hver|]. cbn. auto. }
    cbv zeta. fold (presented k). fold cid.
    assert (Hgo : forall resume subs wl infl, decent (enter_code k (fun i => begin_code c i uuid a resume subs wl infl)) tr).
    { intros resume subs wl infl. unfold enter_code. cbv zeta. fold (presented k). fold cid. cbn [decent]. intros tr1 [i|] H1 Hr.
      - specialize (Hr i eq_refl). assert (Hm : mine c tr1 i) by (exists cid; eauto using came_ext). cbn [decent fst snd]. split; [exact Hm|].
        intros tr2 s n H2 _. assert (H12 : ext tr tr2) by (eapply ext_trans; eauto). split.
        + exists cid. split; [eauto using created_ext|]. simpl. eauto using bears_version_ext.
        + apply decent_begin; auto. eauto using mine_ext.
      - cbn [decent]. intros tr2 i H2 Hc. assert (H12 : ext tr tr2) by (eapply ext_trans; eauto). split.
        + exists cid. split; [exact Hc|]. simpl. eauto using bears_version_ext.
        + apply decent_begin; auto. exists cid. eauto using came_ext. }
    cbn [decent]. destruct (cf_clean_start (c_flags k)); cbn [decent]; [auto|].
    intros tr1 [i|] H1 _; [eapply decent_ext; eauto|]. cbn [decent]. intros r.
    destruct r as [|[st|]| | | | |]; cbn [decent]; intros; eapply decent_ext; eauto.
  Qed.
  Lemma decent_handler cfg tr sv e : event_conn e = c -> In (IStart e) tr -> (forall i, sv = Some i -> mine c tr i) -> from_network e ->
    decent (handler cfg sv e) tr.
  Proof.
    intros Hc Hin Hsv Hn. destruct e as [d first u a|d k|d f|d|d|]; cbn [event_conn] in Hc; [subst d..|]; cbn [handler]; try exact I.
    - assert (Hcl : decent (Emit (Closed c) Finish) tr) by (apply decent_quiet; [discriminate|exact I]).
      destruct sv as [i|]; [exact I|]. destruct first as [[]|]; try exact Hcl. apply decent_connect; [exact Hin|apply Hn].
    - destruct sv as [i|]; [|exact I]. apply decent_packet; auto.
    - destruct sv as [i|]; [|exact I]. apply decent_out; auto.
    - destruct sv as [i|]; [|exact I]. apply decent_end; auto.
    - destruct sv as [i|]; [|exact I]. apply decent_crashed.
  Qed.
End Output.

(** ** The invariant *)
Record out_inv (tr : list item) (x : conf) : Prop := {
  ou_own : own_inv tr x;
  ou_heap : forall i s, nth_error (w_heap (cn_world x)) i = Some s -> vgood tr i s;
  ou_tasks : forall c k, aget Nat.eqb c (cn_tasks x) = Some k -> decent c k tr
}.
Lemma apply_heap_vgood c o w tr : (forall i s, nth_error (w_heap w) i = Some s -> vgood tr i s) ->
  (forall i a b, o = OSess i a b -> vgood tr i b) -> (forall id i s, o = ONew id i s -> i = length (w_heap w) /\ vgood tr i s) ->
  forall i s, nth_error (w_heap (apply c o w)) i = Some s -> vgood tr i s.
Proof.
  intros Hh Hs Hn i s. destruct o as [o|j a b|f n|t ps|p m| |o r|id r|id|id j s0|j| |l|l]; cbn [apply]; try apply Hh.
  - simpl. destruct (Nat.eq_dec i j) as [->|E].
    + intros H. assert (Hb : s = b).
      { destruct (nth_error (w_heap w) j) eqn:Ej.
        - rewrite (put_nth _ _ _ _ Ej) in H. congruence.
        - apply nth_error_None in Ej. assert (nth_error (list_set j b (w_heap w)) j = None); [|congruence].
          apply nth_error_None. rewrite list_set_length. exact Ej. }
      subst s. eapply Hs. reflexivity.
    + rewrite list_set_other by auto. apply Hh.
  - simpl. destruct (Hn _ _ _ eq_refl) as [-> Hg]. intros H. destruct (Nat.lt_ge_cases i (length (w_heap w))) as [Hl|Hl].
    + rewrite nth_error_app1 in H by exact Hl. apply Hh, H.
    + rewrite nth_error_app2 in H by exact Hl. destruct (i - length (w_heap w))%nat as [|n] eqn:E; simpl in H; [|destruct n; discriminate].
      injection H as <-. replace i with (length (w_heap w)) by lia. exact Hg.
Qed.
Lemma decent_next c k w o k1 tr : decent c k tr -> next k w = Some (o, k1) -> ext tr (tr ++ [IStep c o]) ->
  (forall i s, nth_error (w_heap w) i = Some s -> vgood tr i s) -> (forall id i, aget bytes_eqb id (w_manager w) = Some i -> created i id tr) ->
  decent c k1 (tr ++ [IStep c o])
  /\ (forall d q, o = OOut (Sent d q) -> d = c /\ fine c tr q)
  /\ (forall i a b, o = OSess i a b -> vgood (tr ++ [IStep c o]) i b)
  /\ (forall id i s, o = ONew id i s -> i = length (w_heap w) /\ vgood (tr ++ [IStep c o]) i s).
Proof.
  intros Hk Hn He Hh Hm.
  destruct k as [|o0 k|i f|f k|t k|p m k|k|so k|id k|id k|id s k|i k|k|l k|l k]; cbn [Conc.next decent] in *; try discriminate;
    try (injection Hn as <- <-; split; [eapply decent_ext; [exact He|solve [apply Hk]]|repeat match goal with |- _ /\ _ => split end; discriminate]).
  - injection Hn as <- <-. destruct Hk as [H1 H2]. split; [eapply decent_ext; eauto|]. split; [|split; discriminate].
    intros d q E. injection E as ->. apply H1. reflexivity.
  - destruct (nth_error (w_heap w) i) as [s|] eqn:Ei; [|discriminate]. destruct (f s (bk_tree (w_broker w))) as [s' k'] eqn:Ef. injection Hn as <- <-.
    destruct Hk as [H1 H2]. destruct (H2 _ s (bk_tree (w_broker w)) He) as [H3 H4]; [eapply vgood_ext; eauto|].
    rewrite Ef in H3, H4. split; [exact H4|]. split; [discriminate|]. split; [|discriminate]. intros j a b E. injection E as <- <- <-. exact H3.
  - injection Hn as <- <-. split; [|repeat match goal with |- _ /\ _ => split end; discriminate]. apply Hk; [exact He|].
    intros i E. eapply created_ext; [exact He|]. apply Hm, E.
  - injection Hn as <- <-.
    assert (Hc : created (length (w_heap w)) id (tr ++ [IStep c (ONew id (length (w_heap w)) s)])) by (exists c, s; apply in_or_app; right; left; reflexivity).
    destruct (Hk _ _ He Hc) as [H1 H2]. split; [exact H2|]. split; [discriminate|]. split; [discriminate|].
    intros id0 i s0 E. injection E as <- <- <-. auto.
Qed.
Lemma out_step cfg tr x m x1 j : out_inv tr x -> (forall e, j = IStart e -> from_network e) -> mstep cfg x m = Some (x1, j) -> out_inv (tr ++ [j]) x1.
Proof.
  intros Hp Hnet Hs. pose proof (own_step _ _ _ _ _ _ (ou_own _ _ Hp) Hs) as Ho1.
  pose proof (own_once _ _ Ho1) as Honce. assert (He : ext tr (tr ++ [j])) by (apply ext_app; exact Honce).
  apply mstep_inv in Hs.
  destruct Hs as [(e & -> & -> & Hne & Hn & ->)|[(d & -> & -> & Hd & ->)|(d & k0 & o & k1 & -> & -> & Hd & Hn & Hm & ->)]].
  - constructor; [exact Ho1| |]; cbn [cn_world cn_tasks].
    { intros i s H. eapply vgood_ext; [exact He|]. eapply ou_heap; eauto. }
    intros c k Hk. destruct (Nat.eq_dec (event_conn e) c) as [E|E].
    2:{ rewrite tasks_other in Hk by exact E. eapply decent_ext; [exact He|]. eapply ou_tasks; eauto. }
    subst c. rewrite (aget_put_same _ nateqb_spec) in Hk. injection Hk as <-. apply decent_handler; auto.
    + apply in_or_app. right. left. reflexivity.
    + intros i Hi. apply mine_app. eapply oi_conns; [apply (ou_own _ _ Hp)|exact Hi].
  - constructor; [exact Ho1| |]; cbn [cn_world cn_tasks].
    { intros i s H. eapply vgood_ext; [exact He|]. eapply ou_heap; eauto. }
    intros c k Hk. destruct (Nat.eq_dec d c) as [<-|E].
    + rewrite (aget_del_same _ nateqb_spec) in Hk. discriminate.
    + rewrite tasks_del in Hk by exact E. eapply decent_ext; [exact He|]. eapply ou_tasks; eauto.
  - destruct Hp as [Hown Hheap Htasks]. pose proof (Htasks _ _ Hd) as Hk.
    destruct (decent_next _ _ _ _ _ _ Hk Hn He Hheap (oi_manager _ _ Hown)) as (N1 & N2 & N3 & N4).
    constructor; [exact Ho1| |]; cbn [cn_world cn_tasks].
    + apply apply_heap_vgood; auto. intros i s H. eapply vgood_ext; eauto.
    + intros c k Hc. destruct (Nat.eq_dec d c) as [<-|E].
      * rewrite (aget_put_same _ nateqb_spec) in Hc. injection Hc as <-. exact N1.
      * rewrite tasks_other in Hc by exact E. eapply decent_ext; eauto.
Qed.
Lemma out_conf_on st0 : out_inv [] (conf_on st0).
Proof. constructor; try discriminate; [apply own_new|]. intros i s H. destruct i; discriminate. Qed.
Lemma out_runs cfg x tr x' : mruns cfg x tr x' -> forall pre, (forall e, In (IStart e) tr -> from_network e) -> out_inv pre x -> out_inv (pre ++ tr) x'.
Proof.
  induction 1 as [x|x m x1 i tr x2 Hs Hr IH]; intros pre Ht Hi; [rewrite app_nil_r; exact Hi|].
  change (i :: tr) with ([i] ++ tr) in *. rewrite app_assoc. apply IH; [intros e H; apply Ht, in_or_app; auto|].
  eapply out_step; eauto. intros e ->. apply Ht. left. reflexivity.
Qed.
Lemma written_at cfg st0 pre c d k post x : mruns cfg (conf_on st0) (pre ++ IStep c (OOut (Sent d k)) :: post) x ->
  (forall e, In (IStart e) pre -> from_network e) -> d = c /\ fine c pre k.
Proof.
  intros Hr Ht. destruct (step_at _ _ _ _ _ _ _ Hr) as (y & k0 & k1 & H1 & H2 & H3 & _).
  assert (Hp : out_inv pre y) by (apply (out_runs cfg _ _ _ H1 []); auto using out_conf_on).
  pose proof (ou_tasks _ _ Hp _ _ H2) as Hk. destruct k0; cbn [Conc.next] in H3; try discriminate.
  - injection H3 as -> _. destruct Hk as [Hk _]. apply Hk. reflexivity.
  - destruct (nth_error _ _); [|discriminate]. destruct (f _ _). discriminate.
Qed.

(** ** Messages and filters that came over the network *)
Lemma sourced_fields cfg tr m : (forall e, In (IStart e) tr -> from_network e) -> sourced cfg tr m ->
  mg_qos m <> QInvalid /\ owf is_bytes (mg_payload m) /\ match mg_packet_id m with Some i => mg_qos m <> AtMostOnce /\ wf_id i | None => True end.
Proof.
  intros HF Hs. apply (origin_fields (flat_map (fun i => match i with IStart e => [e] | _ => [] end) tr)).
  - apply Forall_forall. intros e He. apply in_flat_map in He. destruct He as (i & Hi & He). destruct i; cbn in He; try contradiction.
    destruct He as [->|[]]. apply HF, Hi.
  - assert (Hin : forall pre e post, tr = pre ++ IStart e :: post -> In e (flat_map (fun i => match i with IStart e => [e] | _ => [] end) tr)).
    { intros pre e post ->. apply in_flat_map. exists (IStart e). split; [apply in_or_app; right; left; reflexivity|left; reflexivity]. }
    destruct Hs as [pre post c p r E H1 H2|pre post c k u a t r E H1 H2 H3 H4]; econstructor; eauto.
Qed.
Lemma asked_string tr c f : (forall e, In (IStart e) tr -> from_network e) -> asked c f tr -> wf_str f.
Proof.
  intros HF (pre & post & p & -> & _ & Hin & _). assert (Hr : received (Subscribe p)) by (apply (HF (EPacket c (Subscribe p))), in_or_app; right; left; reflexivity).
  apply received_subscribe in Hr. destruct Hr as [_ Hr]. rewrite Forall_forall in Hr. apply in_map_iff in Hin. destruct Hin as (fo & <- & Hin). auto.
Qed.
Lemma network_texts tr : over_network tr -> forall c, Forall texts (events_of c tr).
Proof.
  intros H c. apply Forall_forall. intros e He. apply received_texts, H. unfold events_of in He. apply in_flat_map in He. destruct He as (i & Hi & He).
  destruct i; try destruct He. destruct (event_of c e0); [|destruct He]. destruct He as [->|[]]. exact Hi.
Qed.

(** Everything written to connection [c] has the fields it should have. *)
Lemma written_proper cfg trs st pre c d k post x v : lives cfg trs st -> mruns cfg (conf_on st) (pre ++ IStep c (OOut (Sent d k)) :: post) x ->
  Forall over_network (trs ++ [pre]) -> one_version c v pre -> proper v k.
Proof.
  intros Hl Hr Hn Hv. apply Forall_app in Hn. destruct Hn as [Hn Hp]. assert (Hpre : over_network pre) by (inversion Hp; assumption). clear Hp.
  destruct (written_at _ _ _ _ _ _ _ _ Hr Hpre) as [-> Hf].
  assert (Hall : forall tr, In tr (trs ++ [pre]) -> over_network tr).
  { intros tr Hin. apply in_app_or in Hin. destruct Hin as [Hin|[<-|[]]]; [|exact Hpre]. rewrite Forall_forall in Hn. auto. }
  assert (Hnot : (forall b, k <> Publish b) -> proper v k).
  { intros Hk. assert (H : exists id v', came c id pre /\ bears_version id v' pre /\ proper v' k) by (destruct k; try exact Hf; exfalso; eapply Hk; reflexivity).
    destruct H as (id & v' & H1 & H2 & H3). rewrite <- (Hv id v' H1 H2). exact H3. }
  destruct k; try (apply Hnot; discriminate).
  destruct (@delivered_at st cfg (past_of cfg trs) _ _ _ _ _ _ Hr (lives_good _ _ _ Hl) (network_texts _ Hpre)) as (_ & Hw & m & Hm & D1 & D2 & D3 & D4).
  apply msg_past in Hm. destruct Hm as (tr & Hin & Hs). destruct (sourced_fields _ _ _ (Hall _ Hin) Hs) as (F1 & F2 & F3).
  apply wants_past in Hw. destruct Hw as (n & e & _ & tr' & Ht' & Ha). apply nth_error_In in Ht'.
  cbn. rewrite D2, D3, D4. split; [eapply asked_string; [apply Hall, Ht'|exact Ha]|]. auto.
Qed.
