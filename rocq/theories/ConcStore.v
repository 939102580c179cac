(** Facts about what is in the store while handlers run concurrently. *)
From Verif Require Import Base Utf8 Codec SpecCodec Tac Maps CodecFacts Topic SpecTopic TopicFacts Property PacketProps Packets
  TopicTree TreeFacts Storage SpecStorage StorageFacts Broker SpecBroker BrokerFacts Auth Session Server SpecServer SessionFacts ServerFacts
  Conc SpecConc ConcFacts ConcLocks ConcRoute ConcOwn ConcDeliver ConcProv SpecDurable.

(** ** Whose entries a handler writes *)
(** The client whose entry a call changes. *)
Definition key (o : sop) : option bytes :=
  match o with
  | SaveSession id _ | DeleteSession id | StoreWill id _ | DeleteWill id | StoreInflight id _ _ | RemoveInflight id _ => Some id
  | _ => None
  end.
Section Keys.
  Context (K : bytes -> Prop).
  Definition okey (o : sop) : Prop := o <> ClearRetained /\ forall id, key o = Some id -> K id.
  (** A handler that reads identifiers in [K] from sessions changes entries in [K] only (and never removes all retained messages). *)
  Fixpoint keyed (k : code) : Prop :=
    match k with
    | Finish => True
    | Emit _ k | Send _ _ k | Leave k | Detach k | Acquire _ k | Release _ k | Forget _ k | Attach _ k => keyed k
    | Sess i f => forall s n, K (se_client_id s) -> keyed (snd (f s n))
    | Sub _ k => forall n, keyed (k n)
    | Walk _ k => forall ps, keyed (k ps)
    | Store o k => okey o /\ forall r, keyed (k r)
    | Find _ k => forall r, keyed (k r)
    | New _ _ k => forall i, keyed (k i)
    end.
  Lemma okey_none o : key o = None -> o <> ClearRetained -> okey o.
  Proof. intros H Hc. split; [exact Hc|]. intros id E. congruence. Qed.
  Lemma okey_some o id : key o = Some id -> K id -> okey o.
  Proof. intros H Hk. split; [intros ->; discriminate|]. intros id' E. congruence. Qed.
  Lemma keyed_sends ps m k : keyed k -> keyed (sends ps m k).
  Proof. induction ps; simpl; auto. Qed.
  Lemma keyed_publish t m k : keyed k -> keyed (publish t m k).
  Proof.
    intros H. unfold publish, route. destruct (mg_retain m); [destruct (mg_payload m) as [[|]|]|]; cbn [keyed]; try split; try (apply okey_none; [reflexivity|discriminate]); intros; apply keyed_sends; exact H.
  Qed.
  Lemma keyed_end c i : keyed (end_code c i).
  Proof.
    unfold end_code, client_id_of. cbn [keyed snd]. intros s n Hs. destruct (se_will s); [|exact I].
    apply keyed_publish. cbn [keyed snd]. intros s1 _ _ s2 _ H2. split; [eapply okey_some; [reflexivity|exact H2]|]. intros _. exact I.
  Qed.
  Lemma keyed_respond c r : keyed (respond c r).
  Proof. destruct r; exact I. Qed.
  Lemma keyed_sub_one i f k : keyed k -> keyed (subscribe_one i f k).
  Proof. intros H. unfold subscribe_one. cbn [keyed snd]. intros n. split; [apply okey_none; [reflexivity|discriminate]|]. auto. Qed.
  Lemma keyed_subscribe_all i fs : forall k, (forall rs, keyed (k rs)) -> keyed (subscribe_all i fs k).
  Proof.
    induction fs as [|[f o] fs IH]; intros k Hk; cbn [subscribe_all]; auto.
    destruct (validate_subscribe_filter f); [apply IH; auto|]. apply keyed_sub_one, IH. auto.
  Qed.
  Lemma keyed_save i k : keyed k -> keyed (save_subscriptions i k).
  Proof. intros Hk. unfold save_subscriptions, client_id_of. cbn [keyed snd]. intros s _ Hs s1 _ _. split; [eapply okey_some; [reflexivity|exact Hs]|auto]. Qed.
  Lemma keyed_simple c i h after : (forall k, keyed k -> keyed (after k)) -> keyed (simple_code c i h after).
  Proof.
    intros Ha. unfold simple_code. cbn [keyed]. intros s n _. destruct (h s) as [[r|e|] s']; cbn [snd].
    - apply Ha, keyed_respond.
    - apply keyed_end.
    - exact I.
  Qed.
  Lemma keyed_remove i n k : keyed k -> keyed (remove_inflight i n k).
  Proof. intros H. unfold remove_inflight, client_id_of. cbn [keyed snd]. intros s _ Hs. split; [eapply okey_some; [reflexivity|exact Hs]|auto]. Qed.
  Lemma keyed_packet cfg c i k : keyed (packet_code cfg c i k).
  Proof.
    pose proof (keyed_end c i) as He.
    destruct k as [k|k|k|k|k|k|k|k|k|k|k| | |d|k]; cbn [packet_code]; try exact He; try (apply keyed_simple; auto using keyed_remove; fail).
    - unfold publish_code. destruct (validate_publish_topic _); [exact He|].
      destruct (pb_qos k); destruct (pb_packet_id k); cbn [keyed snd]; intros; apply keyed_publish; auto using keyed_respond.
    - unfold subscribe_code. cbn [keyed snd]. intros s n _. apply keyed_subscribe_all. intros rs. cbn [keyed]. apply keyed_save. exact I.
    - unfold unsubscribe_code. cbn [keyed]. intros s n _. destruct (unsubscribe_loop _ _) as [rs subs]. cbn [snd]. apply keyed_save. exact I.
    - exact I.
    - unfold disconnect_code, client_id_of. cbn [keyed snd]. intros s _ _ s1 _ H1. split; [eapply okey_some; [reflexivity|exact H1]|auto].
  Qed.
  Lemma keyed_out c i f : keyed (out_code c i f).
  Proof.
    unfold out_code. cbn [keyed]. intros s n _. destruct (process_outgoing _ _ _) as [[[p|e|] s']|]; cbn [snd]; try exact I.
    destruct (pb_packet_id p); [destruct (pb_qos p)|]; unfold client_id_of; cbn [keyed snd]; auto;
      intros s1 _ H1; (split; [eapply okey_some; [reflexivity|exact H1]|auto]).
  Qed.
  Lemma keyed_emits os k : keyed k -> keyed (emits os k).
  Proof. induction os; simpl; auto. Qed.
  Lemma keyed_restore_all i fs k : keyed k -> keyed (restore_all i fs k).
  Proof. intros Hk. induction fs as [|f fs IH]; cbn [restore_all]; auto. apply keyed_sub_one, IH. Qed.
  Lemma keyed_restore c i subs wl infl : keyed (restore_code c i subs wl infl).
  Proof.
    unfold restore_code. cbv zeta.
    assert (H : keyed (emits (map (fun x => Sent c (Publish (retry_publish x))) infl) (Attach i Finish))) by (apply keyed_emits; exact I).
    destruct subs; [destruct wl; cbn [keyed snd]; auto|]. cbn [keyed]. apply keyed_restore_all. cbn [keyed]. destruct wl; cbn [keyed snd]; auto.
  Qed.
  Lemma keyed_begin c i uuid a resume subs wl infl : keyed (begin_code c i uuid a resume subs wl infl).
  Proof.
    unfold begin_code, client_id_of. cbn [keyed]. intros s n _. destruct (begin uuid resume s) as [ack s']. cbn [snd].
    destruct a; [|exact I]. cbn [keyed snd]. intros s1 n1 H1. split; [eapply okey_some; [reflexivity|exact H1]|]. intros _ s2 n2 _.
    destruct (se_will s2); cbn [keyed]; [split; [eapply okey_some; [reflexivity|exact H1]|]; intros|]; apply keyed_restore.
  Qed.
  Lemma keyed_connect cfg c k uuid a : K (presented k) -> keyed (connect_code cfg c k uuid a).
  Proof.
    intros HK. unfold connect_code. destruct (negb (authenticated cfg k)); [exact I|]. cbv zeta. cbn [keyed]. fold (presented k).
    assert (Hgo : forall resume subs wl infl, keyed (enter_code k (fun i => begin_code c i uuid a resume subs wl infl))).
    { intros. unfold enter_code. cbv zeta. cbn [keyed]. intros [i|]; cbn [keyed snd]; intros; apply keyed_begin. }
    destruct (cf_clean_start (c_flags k)); cbn [keyed].
    - split; [eapply okey_some; [reflexivity|exact HK]|]. intros _. split; [eapply okey_some; [reflexivity|exact HK]|]. auto.
    - intros [i|]; [apply Hgo|]. cbn [keyed]. split; [apply okey_none; [reflexivity|discriminate]|]. intros r. destruct r; try apply Hgo. destruct s as [st|]; [|apply Hgo]. cbn [keyed].
      split; [apply okey_none; [reflexivity|discriminate]|]. intros. split; [apply okey_none; [reflexivity|discriminate]|]. intros. apply Hgo.
  Qed.
  Lemma keyed_handler cfg sv e : (forall c k u a, e = EFirst c (Some (Connect k)) u a -> K (presented k)) -> keyed (handler cfg sv e).
  Proof.
    intros HK. destruct e as [c first u a|c k|c f|c|c|]; cbn [handler]; try exact I.
    - destruct sv as [i|]; [exact I|]. destruct first as [[]|]; try exact I. apply keyed_connect. eapply HK. reflexivity.
    - destruct sv as [i|]; [|exact I]. apply keyed_packet.
    - destruct sv as [i|]; [|exact I]. apply keyed_out.
    - destruct sv as [i|]; [|exact I]. apply keyed_end.
    - destruct sv as [i|]; exact I.
  Qed.
  Lemma keyed_next k w o k1 : keyed k -> next k w = Some (o, k1) -> (forall i a b, o = OSess i a b -> K (se_client_id a)) ->
    keyed k1 /\ forall p r, o = OStore p r -> okey p.
  Proof.
    destruct k; cbn [keyed Conc.next]; intros H E Hs; try discriminate; try (injection E as <- <-; split; [apply H|discriminate]; fail).
    - destruct (nth_error (w_heap w) i) as [s|]; [|discriminate]. destruct (f s (bk_tree (w_broker w))) as [s' k'] eqn:Ef. injection E as <- <-.
      split; [|discriminate]. specialize (H s (bk_tree (w_broker w))). rewrite Ef in H. apply H. eapply Hs. reflexivity.
    - injection E as <- <-. split; [apply H|]. intros p r [= <- <-]. apply H.
  Qed.
End Keys.

(** ** Nobody else *)
Definition kin (tr : list item) (d : nat) (id : bytes) : Prop := exists e, linked tr d e /\ named e id tr.
Lemma owns_linked c id tr d : owns c id tr -> linked tr c d -> d = c.
Proof.
  intros [H1 H2] Hl. revert H1 H2. induction Hl as [|c d e id' H IH Hd He]; intros H1 H2; [reflexivity|]. specialize (IH H1 H2). subst d. rewrite (H1 _ Hd) in He. auto.
Qed.
Lemma owns_kin c id tr d : owns c id tr -> kin tr d id -> d = c.
Proof.
  intros Ho (e & H1 & H2). pose proof Ho as [_ Hn]. apply Hn in H2. subst e. eapply owns_linked; [exact Ho|]. apply linked_sym, H1.
Qed.
Lemma prov_at {st0} cfg pre x {Hsane : Sane cfg st0} : mruns cfg (conf_on st0) pre x -> (forall c, Forall texts (events_of c pre)) -> exists P, prov_inv cfg P pre x.
Proof. destruct Hsane as [P HP]. intros H Ht. exists P. apply (@prov_runs st0 cfg P _ _ _ H []); auto; [constructor|apply prov_conf_on, HP]. Qed.
Lemma texts_app_l c a b : Forall texts (events_of c (a ++ b)) -> Forall texts (events_of c a).
Proof. rewrite events_app. intros H. apply Forall_app in H. apply H. Qed.
Lemma keyed_runs {st0} cfg TR {Hsane : Sane cfg st0} : (forall c, Forall texts (events_of c TR)) -> forall x tr x', mruns cfg x tr x' -> forall pre rest, TR = pre ++ tr ++ rest -> mruns cfg (conf_on st0) pre x ->
  (forall d k, aget Nat.eqb d (cn_tasks x) = Some k -> keyed (kin TR d) k) ->
  (forall d k, aget Nat.eqb d (cn_tasks x') = Some k -> keyed (kin TR d) k) /\
  forall d p r, In (IStep d (OStore p r)) tr -> okey (kin TR d) p.
Proof.
  intros Htx x tr x'. induction 1 as [x|x m x1 j tr x2 Hs Hr IH]; intros pre rest E Hpre Hk; [split; [exact Hk|intros d p r []]|].
  assert (Hp : exists P, prov_inv cfg P pre x) by (apply (@prov_at st0 cfg _ _ Hsane); [exact Hpre|]; intros c; specialize (Htx c); rewrite E in Htx; apply texts_app_l in Htx; exact Htx). destruct Hp as [P Hp].
  assert (Hpre1 : mruns cfg (conf_on st0) (pre ++ [j]) x1) by (apply mruns_app; exists x; split; [exact Hpre|]; econstructor; [exact Hs|constructor]).
  assert (E1 : TR = (pre ++ [j]) ++ tr ++ rest) by (rewrite E, <- app_assoc; reflexivity).
  apply mstep_inv in Hs.
  destruct Hs as [(e & -> & -> & Hne & Hn & ->)|[(d & -> & -> & Hd & ->)|(d & k0 & o & k1 & -> & -> & Hd & Hn & Hm & ->)]].
  - destruct (IH _ _ E1 Hpre1) as [I1 I2].
    + cbn [cn_tasks]. intros d k H. destruct (Nat.eq_dec (event_conn e) d) as [<-|Ed]; [|rewrite tasks_other in H by exact Ed; auto].
      rewrite (aget_put_same _ nateqb_spec) in H. injection H as <-. apply keyed_handler. intros c k u a ->. cbn [event_conn]. exists c. split; [constructor|].
      exists k, u, a. split; [|auto]. rewrite E1. apply in_or_app. left. apply in_or_app. right. left. reflexivity.
    + split; [exact I1|]. intros d p r [H|H]; [discriminate|eauto].
  - destruct (IH _ _ E1 Hpre1) as [I1 I2].
    + cbn [cn_tasks]. intros d0 k H. destruct (Nat.eq_dec d d0) as [<-|Ed]; [rewrite (aget_del_same _ nateqb_spec) in H; discriminate|rewrite tasks_del in H by exact Ed; auto].
    + split; [exact I1|]. intros d0 p r [H|H]; [discriminate|eauto].
  - destruct (keyed_next (kin TR d) _ _ _ _ (Hk _ _ Hd) Hn) as [K1 K2].
    { intros i a b ->. pose proof (within_next _ _ _ _ _ _ (oi_tasks _ _ (pi_own _ _ _ _ Hp) _ _ Hd) Hn) as [_ Hmine]. cbn in Hmine.
      assert (Ha : nth_error (w_heap (cn_world x)) i = Some a).
      { destruct k0; cbn [Conc.next] in Hn; try discriminate. destruct (nth_error _ i0) eqn:En; [|discriminate]. destruct (f _ _). congruence. }
      destruct (pi_heap _ _ _ _ Hp _ _ Ha) as (_ & _ & (e & He1 & He2) & _). exists e. rewrite E. split; [apply linked_app|apply named_app, He2].
      eapply mine_linked; eauto. eapply own_once. apply (pi_own _ _ _ _ Hp). }
    destruct (IH _ _ E1 Hpre1) as [I1 I2].
    + cbn [cn_tasks]. intros d0 k H. destruct (Nat.eq_dec d d0) as [<-|Ed]; [|rewrite tasks_other in H by exact Ed; auto].
      rewrite (aget_put_same _ nateqb_spec) in H. injection H as <-. exact K1.
    + split; [exact I1|]. intros d0 p r [H|H]; [|eauto]. injection H as -> ->. eapply K2. reflexivity.
Qed.
(** Nobody else uses the sessions of a client with an identifier of its own or changes its entries in the store. *)
Lemma nobody_else {st0} cfg TR x c id {Hsane : Sane cfg st0} : mruns cfg (conf_on st0) TR x -> (forall c, Forall texts (events_of c TR)) -> owns c id TR ->
  forall d o, In (IStep d o) TR -> d <> c ->
    (forall i a b, mine c TR i -> o <> OSess i a b) /\ forall p r, o = OStore p r -> key p <> Some id.
Proof.
  intros Hr Ht Ho d o Hin Hd. split.
  - intros i a b Hm ->. pose proof (own_runs _ _ _ _ Hr [] own_new) as Hown. assert (Hu : uses d i TR) by (exists a, b; exact Hin).
    pose proof (oi_uses _ _ Hown _ _ Hu) as (id' & H1 & H2). destruct Hm as (id2 & H3 & H4). pose proof (oi_once _ _ Hown _ _ _ H1 H3). subst id2.
    destruct Ho as [O1 O2]. apply Hd. rewrite (O1 id') in H2 by (apply came_named; exact H4). apply O2, came_named, H2.
  - intros p r -> Hk. apply Hd. eapply owns_kin; [exact Ho|].
    destruct (keyed_runs cfg TR Ht (conf_on st0) TR x Hr [] []) as [_ H].
    + rewrite app_nil_r. reflexivity.
    + constructor.
    + discriminate.
    + eapply H; eauto.
Qed.
Lemma no_clear {st0} cfg TR x {Hsane : Sane cfg st0} : mruns cfg (conf_on st0) TR x -> (forall c, Forall texts (events_of c TR)) -> forall d r, ~ In (IStep d (OStore ClearRetained r)) TR.
Proof.
  intros Hr Ht d r Hin. destruct (keyed_runs cfg TR Ht (conf_on st0) TR x Hr [] []) as [_ H].
  - rewrite app_nil_r. reflexivity.
  - constructor.
  - discriminate.
  - destruct (H _ _ _ Hin) as [Hc _]. congruence.
Qed.
