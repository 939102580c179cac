(** The will of a client with an identifier of its own: stored until it is published. *)
From Verif Require Import Base Utf8 Codec SpecCodec Tac Maps CodecFacts Topic SpecTopic TopicFacts Property PacketProps Packets
  TopicTree TreeFacts Storage SpecStorage StorageFacts Broker SpecBroker BrokerFacts Auth Session Server SpecServer SessionFacts ServerFacts HandlerFacts
  Conc SpecConc ConcFacts ConcLocks ConcRoute ConcOwn ConcDeliver ConcProv ConcWill WillFacts SpecDurable ConcStore.

(** ** What a handler does with the will of its session *)
Section Track.
  Context (i : nat) (w : will).
  (** The will was sent to everybody who is subscribed to its topic. *)
  Definition passed_on (h : list obs) : Prop :=
    exists h0 n h1, h = h0 ++ OWalk (wl_topic w) (targets (wl_topic w) n) :: map (fun p => OSend p (will_message w)) (targets (wl_topic w) n) ++ h1.
  Lemma passed_app h l : passed_on h -> passed_on (h ++ l).
  Proof. intros (h0 & n & h1 & ->). exists h0, n, (h1 ++ l). rewrite <- !app_assoc. cbn [app]. rewrite <- app_assoc. reflexivity. Qed.
  (** [k] leaves the will in the session unless it ends the connection, and deletes it from the store only once it was
      passed on; [s]: the session, [b]: whether the connection is served, [h]: the steps made so far. *)
  Fixpoint tracks (k : code) (s : session) (b : bool) (h : list obs) : Prop :=
    match k with
    | Finish => b = true -> se_will s = Some w
    | Emit o k => tracks k s b (h ++ [OOut o])
    | Sess j g => j = i /\ forall n, tracks (snd (g s n)) (fst (g s n)) b (h ++ [OSess i s (fst (g s n))])
    | Sub f k => forall n, tracks (k n) s b (h ++ [OSub f n])
    | Walk t k => forall n, tracks (k (targets t n)) s b (h ++ [OWalk t (targets t n)])
    | Send p m k => tracks k s b (h ++ [OSend p m])
    | Leave k => tracks k s b (h ++ [OLeave])
    | Store o k => match o with StoreWill _ _ => False | DeleteWill _ => passed_on h | _ => True end /\ forall r, tracks (k r) s b (h ++ [OStore o r])
    | Find _ _ | Forget _ _ | New _ _ _ | Attach _ _ => False
    | Detach k => tracks k s false (h ++ [ODetach])
    | Acquire l k => tracks k s b (h ++ [OAcquire l])
    | Release l k => tracks k s b (h ++ [ORelease l])
    end.
  Lemma tracks_next c k s b h w0 o k1 : tracks k s b h -> next k w0 = Some (o, k1) -> nth_error (w_heap w0) i = Some s ->
    (forall j, o <> OAttach j) /\
    (forall p r, o = OStore p r -> match p with StoreWill _ _ => False | DeleteWill _ => passed_on h | _ => True end) /\
    exists s', nth_error (w_heap (apply c o w0)) i = Some s' /\ tracks k1 s' (match o with ODetach => false | _ => b end) (h ++ [o]).
  Proof.
    destruct k; cbn [tracks Conc.next]; intros H E Hs; try discriminate; try contradiction;
      try (injection E as <- <-; split; [discriminate|]; split; [discriminate|]; exists s; split; [exact Hs|apply H]; fail).
    - destruct H as [-> H]. rewrite Hs in E. specialize (H (bk_tree (w_broker w0))). destruct (f s (bk_tree (w_broker w0))) as [s' k'] eqn:Ef.
      injection E as <- <-. split; [discriminate|]. split; [discriminate|]. exists s'. split; [eapply heap_sess; exact Hs|exact H].
    - injection E as <- <-. split; [discriminate|]. split; [intros p r [= <- <-]; apply H|]. exists s. split; [exact Hs|apply H].
  Qed.
  Lemma tracks_sends ps m k s b : forall h, tracks k s b (h ++ map (fun p => OSend p m) ps) -> tracks (sends ps m k) s b h.
  Proof.
    induction ps as [|p ps IH]; intros h H; cbn [sends map] in *; [rewrite app_nil_r in H; exact H|]. cbn [tracks]. apply IH. rewrite <- app_assoc. exact H.
  Qed.
  Lemma tracks_route t m k s b h : (forall n, tracks k s b (h ++ OWalk t (targets t n) :: map (fun p => OSend p m) (targets t n) ++ [OLeave])) -> tracks (route t m k) s b h.
  Proof.
    intros H. unfold route. cbn [tracks]. intros n. apply tracks_sends. cbn [tracks]. rewrite <- !app_assoc. apply H.
  Qed.
  Lemma tracks_publish t m k s b h : (forall h, tracks k s b h) -> tracks (publish t m k) s b h.
  Proof.
    intros H. unfold publish. destruct (mg_retain m); [destruct (mg_payload m) as [[|]|]|]; cbn [tracks]; try (split; [exact I|]; intros r); apply tracks_route; intros; apply H.
  Qed.
  Lemma tracks_passed k s b h : (forall h, passed_on h -> tracks k s b h) -> tracks (publish (wl_topic w) (will_message w) k) s b h.
  Proof.
    intros H. assert (Hr : forall h, tracks (route (wl_topic w) (will_message w) k) s b h).
    { intros h1. apply tracks_route. intros n. apply H. exists h1, n, [OLeave]. reflexivity. }
    unfold publish. destruct (mg_retain (will_message w)); [destruct (mg_payload (will_message w)) as [[|]|]|]; cbn [tracks]; try (split; [exact I|]; intros r); apply Hr.
  Qed.
  Lemma tracks_end c s h : se_will s = Some w -> tracks (end_code c i) s true h.
  Proof.
    intros E. unfold end_code, client_id_of. cbn [tracks]. split; [reflexivity|]. intros _. cbn [fst snd]. rewrite E. apply tracks_passed. intros h1 Hp.
    cbn [tracks fst snd]. split; [reflexivity|]. intros _. split; [reflexivity|]. intros _. split; [repeat apply passed_app; exact Hp|]. intros r. discriminate.
  Qed.
  Lemma tracks_respond c r s h : se_will s = Some w -> tracks (respond c r) s true h.
  Proof. intros E. destruct r; cbn [respond tracks]; auto. Qed.
  Lemma tracks_id k s b h : (forall id h, tracks (k id) s b h) -> tracks (client_id_of i k) s b h.
  Proof. intros H. unfold client_id_of. cbn [tracks fst snd]. auto. Qed.
  Lemma tracks_save k s b h : (forall h, tracks k s b h) -> tracks (save_subscriptions i k) s b h.
  Proof. intros H. unfold save_subscriptions. apply tracks_id. intros id h1. cbn [tracks fst snd]. auto. Qed.
  Lemma tracks_sub_one f k s b h : (forall s' h, se_will s' = se_will s -> tracks k s' b h) -> tracks (subscribe_one i f k) s b h.
  Proof. intros H. unfold subscribe_one. cbn [tracks fst snd]. intros n. split; [exact I|]. intros r. split; [reflexivity|]. intros _. apply H. reflexivity. Qed.
  Lemma tracks_subscribe_all fs : forall k s b h, (forall rs s' h, se_will s' = se_will s -> tracks (k rs) s' b h) -> tracks (subscribe_all i fs k) s b h.
  Proof.
    induction fs as [|[f o] fs IH]; intros k s b h Hk; cbn [subscribe_all]; auto.
    destruct (validate_subscribe_filter f); [apply IH; auto|]. apply tracks_sub_one. intros s' h' E. apply IH. intros rs s2 h2 E2. apply Hk. congruence.
  Qed.
  Lemma tracks_simple c h after s l : (forall s, se_will (snd (h s)) = se_will s) -> se_will s = Some w ->
    (forall r s l, se_will s = Some w -> tracks (after (respond c r)) s true l) -> tracks (simple_code c i h after) s true l.
  Proof.
    intros Hh E Ha. unfold simple_code. cbn [tracks]. split; [reflexivity|]. intros n. specialize (Hh s).
    destruct (h s) as [r s']. cbn [fst snd] in *. rewrite E in Hh. destruct r; [apply Ha, Hh|apply tracks_end, Hh|cbn [tracks]; discriminate].
  Qed.
  Lemma tracks_remove n k s b h : (forall h, tracks k s b h) -> tracks (remove_inflight i n k) s b h.
  Proof. intros H. unfold remove_inflight. apply tracks_id. intros. cbn [tracks]. auto. Qed.
  Lemma auth_will cfg k s : se_will (snd (handle_auth (sv_manager cfg) k s)) = se_will s.
  Proof.
    destruct (handle_auth (sv_manager cfg) k s) as [r s'] eqn:E. unfold handle_auth in E. cbn [snd].
    destruct (sv_manager cfg) as [am|]; [|inv E; auto]. destruct (au_reason k); try (inv E; auto; fail).
    - destruct (se_auth s); [|inv E; auto]. destruct (aup_auth_data _); [|inv E; auto].
      destruct (continue_auth _ _ _); inv E; auto.
    - destruct (aup_auth_method _); [|inv E; auto]. destruct (supports_method _ _); simpl in E; [|inv E; auto].
      destruct (start_auth _ _ _); inv E; auto.
  Qed.
  Lemma tracks_packet cfg c k s h : (forall d, k <> Disconnect d) -> se_will s = Some w -> tracks (packet_code cfg c i k) s true h.
  Proof.
    intros Hd E. pose proof (tracks_end c s h E) as He.
    destruct k as [k|k|k|k|k|k|k|k|k|k|k| | |d|k]; cbn [packet_code]; try exact He.
    - unfold publish_code. destruct (validate_publish_topic _); [exact He|].
      destruct (pb_qos k); destruct (pb_packet_id k); try (apply tracks_publish; intros; auto using tracks_respond, tracks_end; fail).
      cbn [tracks fst snd]. split; [reflexivity|]. intros _. apply tracks_publish; auto using tracks_respond.
    - apply tracks_simple; auto. intros. apply tracks_remove. auto using tracks_respond.
    - apply tracks_simple; auto using tracks_respond.
    - apply tracks_simple; auto using tracks_respond.
    - apply tracks_simple; auto. intros. apply tracks_remove. auto using tracks_respond.
    - unfold subscribe_code. cbn [tracks fst snd]. split; [reflexivity|]. intros _. apply tracks_subscribe_all. intros rs s' h' E'. cbn [tracks]. apply tracks_save. intros. cbn [tracks]. congruence.
    - unfold unsubscribe_code. cbn [tracks]. split; [reflexivity|]. intros n. destruct (unsubscribe_loop _ _) as [rs subs]. cbn [fst snd]. apply tracks_save. intros. cbn [tracks]. auto.
    - apply tracks_respond, E.
    - destruct (Hd d eq_refl).
    - apply tracks_simple; auto using tracks_respond. intros. apply auth_will.
  Qed.
  Lemma tracks_out c f s h : se_will s = Some w -> tracks (out_code c i f) s true h.
  Proof.
    intros E. unfold out_code. cbn [tracks]. split; [reflexivity|]. intros n.
    destruct (process_outgoing f s _) as [[r s']|] eqn:Ep; [|cbn [fst snd tracks]; auto].
    assert (E' : se_will s' = Some w) by (rewrite (outgoing_will _ _ _ _ _ Ep); exact E).
    destruct r as [p|e|]; cbn [fst snd]; [|cbn [tracks]; discriminate|cbn [tracks]; discriminate].
    destruct (pb_packet_id p); [destruct (pb_qos p)|]; try (apply tracks_id; intros); cbn [tracks]; auto.
  Qed.
  Lemma tracks_handler cfg e s : (forall d k u a, e <> EFirst d k u a) -> (forall d k, e <> EPacket d (Disconnect k)) -> se_will s = Some w -> tracks (handler cfg (Some i) e) s true [].
  Proof.
    intros H1 H2 E. destruct e as [c first u a|c k|c f|c|c|]; cbn [handler].
    - destruct (H1 c first u a eq_refl).
    - apply tracks_packet; [|exact E]. intros d ->. apply (H2 c d eq_refl).
    - apply tracks_out, E.
    - apply tracks_end, E.
    - cbn [tracks]. discriminate.
    - cbn [tracks]. auto.
  Qed.
End Track.

(** ** Runs *)
Section Watch.
  Context (cfg : config) (c i : nat) (w : will).
  (** Connection [c] is idle, or handles an event of [done]. *)
  Definition watched (done : list item) (x : conf) : Prop :=
    exists s, nth_error (w_heap (cn_world x)) i = Some s /\
      (aget Nat.eqb c (w_conns (cn_world x)) = None \/ aget Nat.eqb c (w_conns (cn_world x)) = Some i) /\
      match aget Nat.eqb c (cn_tasks x) with
      | None => aget Nat.eqb c (w_conns (cn_world x)) = Some i -> se_will s = Some w
      | Some k => exists a e b, done = a ++ IStart e :: b /\ event_conn e = c /\ ~ In (IEnd c) b /\
          tracks i w k s (is_some (aget Nat.eqb c (w_conns (cn_world x)))) (steps_of c b)
      end.
  Lemma watched_step done x m x1 j : mstep cfg x m = Some (x1, j) -> watched done x ->
    (forall d o, j = IStep d o -> d <> c -> forall s s', o <> OSess i s s') ->
    (forall e, j = IStart e -> event_conn e = c -> (forall d k u a, e <> EFirst d k u a) /\ (forall d k, e <> EPacket d (Disconnect k))) ->
    watched (done ++ [j]) x1 /\
    (forall p r, j = IStep c (OStore p r) ->
       match p with StoreWill _ _ => False | DeleteWill _ => exists a e b, done = a ++ IStart e :: b /\ event_conn e = c /\ ~ In (IEnd c) b /\ passed_on w (steps_of c b) | _ => True end).
  Proof.
    intros Hs (s & Hi & Hc & H) Ho He. apply mstep_inv in Hs.
    destruct Hs as [(e & -> & -> & Hne & Hni & ->)|[(d & -> & -> & Hd & ->)|(d & k0 & o & k1 & -> & -> & Hd & Hnx & Hmy & ->)]].
    - split; [|discriminate]. exists s. split; [exact Hi|]. split; [exact Hc|]. cbn [cn_tasks cn_world]. destruct (Nat.eq_dec (event_conn e) c) as [Ed|Ed].
      + destruct (He e eq_refl Ed) as [He1 He2]. rewrite Ed in *. rewrite Hni in H. rewrite (aget_put_same _ nateqb_spec). exists done, e, []. split; [reflexivity|]. split; [exact Ed|]. split; [intros []|].
        destruct Hc as [Hc|Hc]; rewrite Hc in *; cbn [is_some].
        * assert (Ef : handler cfg None e = Finish) by (destruct e as [d k u a| | | | |]; try reflexivity; destruct (He1 d k u a eq_refl)). rewrite Ef. cbn [tracks]. discriminate.
        * apply tracks_handler; auto.
      + rewrite tasks_other by exact Ed. destruct (aget Nat.eqb c (cn_tasks x)); [|exact H].
        destruct H as (a & e0 & b & -> & Q1 & Q2 & Q3). exists a, e0, (b ++ [IStart e]). split; [rewrite <- app_assoc; reflexivity|]. split; [exact Q1|].
        split; [rewrite in_app_iff; intros [Q|[Q|[]]]; [auto|discriminate]|]. rewrite steps_app. cbn. rewrite app_nil_r. exact Q3.
    - split; [|discriminate]. exists s. split; [exact Hi|]. split; [exact Hc|]. cbn [cn_tasks cn_world]. destruct (Nat.eq_dec d c) as [->|Ed].
      + rewrite (aget_del_same _ nateqb_spec). rewrite Hd in H. destruct H as (a & e0 & b & _ & _ & _ & Q3). cbn [tracks] in Q3. intros Hs. apply Q3. rewrite Hs. reflexivity.
      + rewrite tasks_del by exact Ed. destruct (aget Nat.eqb c (cn_tasks x)); [|exact H].
        destruct H as (a & e0 & b & -> & Q1 & Q2 & Q3). exists a, e0, (b ++ [IEnd d]). split; [rewrite <- app_assoc; reflexivity|]. split; [exact Q1|].
        split; [rewrite in_app_iff; intros [Q|[Q|[]]]; [auto|congruence]|]. rewrite steps_app. cbn. rewrite app_nil_r. exact Q3.
    - destruct (Nat.eq_dec d c) as [->|Ed].
      + rewrite Hd in H. destruct H as (a & e0 & b & -> & Q1 & Q2 & Q3). destruct (tracks_next _ _ c _ _ _ _ _ _ _ Q3 Hnx Hi) as (Ha & Hst & s' & Hs' & HT). split.
        * exists s'. split; [exact Hs'|]. cbn [cn_tasks cn_world]. split.
          { destruct o; try exact Hc; [destruct (Ha i0 eq_refl)|]. cbn [apply w_conns set_conns]. left. apply (aget_del_same _ nateqb_spec). }
          rewrite (aget_put_same _ nateqb_spec). exists a, e0, (b ++ [IStep c o]). split; [rewrite <- app_assoc; reflexivity|]. split; [exact Q1|].
          split; [rewrite in_app_iff; intros [Q|[Q|[]]]; [auto|discriminate]|]. rewrite steps_app. cbn [steps_of flat_map]. rewrite Nat.eqb_refl. cbn [app].
          destruct o; try exact HT; [destruct (Ha i0 eq_refl)|]. cbn [apply w_conns set_conns]. rewrite (aget_del_same _ nateqb_spec). exact HT.
        * intros p r [= ->]. specialize (Hst p r eq_refl). destruct p; auto. exists a, e0, b. auto.
      + split; [|congruence]. exists s. cbn [cn_world cn_tasks]. rewrite conns_apply by auto. split; [apply heap_other; [exact Hi|]; eapply Ho; eauto|]. split; [exact Hc|].
        rewrite tasks_other by exact Ed. destruct (aget Nat.eqb c (cn_tasks x)); [|exact H].
        destruct H as (a & e0 & b & -> & Q1 & Q2 & Q3). exists a, e0, (b ++ [IStep d o]). split; [rewrite <- app_assoc; reflexivity|]. split; [exact Q1|].
        split; [rewrite in_app_iff; intros [Q|[Q|[]]]; [auto|discriminate]|]. rewrite steps_app. cbn [steps_of flat_map]. rewrite (proj2 (Nat.eqb_neq d c) Ed). cbn. rewrite app_nil_r. exact Q3.
  Qed.
  Lemma watched_runs x tr x' : mruns cfg x tr x' -> forall done, watched done x ->
    (forall d s s', In (IStep d (OSess i s s')) tr -> d = c) ->
    (forall e, In (IStart e) tr -> event_conn e = c -> (forall d k u a, e <> EFirst d k u a) /\ (forall d k, e <> EPacket d (Disconnect k))) ->
    forall p1 p r p2, tr = p1 ++ IStep c (OStore p r) :: p2 ->
      match p with StoreWill _ _ => False | DeleteWill _ => exists a e b, done ++ p1 = a ++ IStart e :: b /\ event_conn e = c /\ ~ In (IEnd c) b /\ passed_on w (steps_of c b) | _ => True end.
  Proof.
    induction 1 as [x|x m x1 j tr x2 Hs Hr IH]; intros done Hw Ho He p1 p r p2 E; [destruct p1; discriminate|].
    destruct (watched_step done x m x1 j Hs Hw) as [Hw1 Hst].
    { intros d o -> Hd s s' ->. apply Hd. eapply Ho. left. reflexivity. }
    { intros e ->. apply He. left. reflexivity. }
    destruct p1 as [|j' p1]; cbn [app] in E; injection E as E1 E2; subst.
    - rewrite app_nil_r. eapply Hst. reflexivity.
    - assert (Ho1 : forall d s s', In (IStep d (OSess i s s')) (p1 ++ IStep c (OStore p r) :: p2) -> d = c) by (intros d s s' Hin; eapply Ho; right; exact Hin).
      assert (He1 : forall e, In (IStart e) (p1 ++ IStep c (OStore p r) :: p2) -> event_conn e = c -> (forall d k u a, e <> EFirst d k u a) /\ (forall d k, e <> EPacket d (Disconnect k))) by (intros e Hin; apply He; right; exact Hin).
      pose proof (IH (done ++ [j']) Hw1 Ho1 He1 p1 p r p2 eq_refl) as Q. rewrite <- app_assoc in Q. exact Q.
  Qed.
End Watch.

(** ** The stored will *)
Definition spares_will (id : bytes) (p : sop) : Prop := match p with StoreWill id' _ | DeleteWill id' => id' <> id | _ => True end.
Lemma will_stays id p m : spares_will id p -> mem_get_will id (snd (mem_step m p)) = mem_get_will id m.
Proof.
  destruct p; cbn [spares_will mem_step snd]; intros H; try reflexivity; unfold mem_get_will.
  - cbn [mem_store_will ms_wills]. apply (aget_put_other _ beqb_spec). auto.
  - cbn [mem_delete_will ms_wills]. apply (aget_del_other _ beqb_spec). auto.
  - unfold mem_remove_inflight. destruct (aget bytes_eqb client (ms_inflight m)); reflexivity.
Qed.
Lemma will_kept cfg x tr x' id : mruns cfg x tr x' -> (forall d p r, In (IStep d (OStore p r)) tr -> spares_will id p) ->
  mem_get_will id (w_store (cn_world x')) = mem_get_will id (w_store (cn_world x)).
Proof.
  induction 1 as [x|x m x1 j tr x2 Hs Hr IH]; intros H; [reflexivity|]. rewrite IH by (intros d p r Hin; eapply H; right; exact Hin).
  apply mstep_inv in Hs. destruct Hs as [(e & -> & -> & Hne & Hni & ->)|[(d & -> & -> & Hd & ->)|(d & k0 & o & k1 & -> & -> & Hd & Hnx & Hmy & ->)]]; try reflexivity.
  destruct o; try reflexivity. cbn [cn_world]. change (w_store (apply d (OStore o r) (cn_world x))) with (snd (mem_step (w_store (cn_world x)) o)).
  apply will_stays. eapply H. left. reflexivity.
Qed.
(** The last steps of a CONNECT. *)
Definition leaves_will (l : list obs) : Prop :=
  exists j s l1 l2 l3, l = l1 ++ OSess j s s :: l2 ++ ORelease LManager :: l3 ++ [OAttach j] /\ Forall (willless j) l3 /\
    match se_will s with Some x => exists id' r, l2 = [OStore (StoreWill id' x) r] | None => l2 = [] end.
Lemma wps_leaves cfg c k u : authenticated cfg k = true ->
  wps (fun l => leaves_will l \/ (cf_clean_start (c_flags k) = false /\ found_will l)) (connect_code cfg c k u true).
Proof.
  intros Ha. apply wps_enter; [exact Ha| |auto]. intros l0 i o r subs infl _. unfold begin_code. intros s n.
  destruct (begin u r s) as [ack s']. cbn [fst snd wps]. intros s1 n1 m3 s2 n2. cbn [fst snd].
  destruct (se_will s2) as [x|] eqn:Ew; cbn [wps].
  - intros m4. apply wps_restore. intros l Hl. left. exists i, s2, (l0 ++ [o; OSess i s s'; OOut (Sent c ack); OSess i s1 s1; OStore (SaveSession (se_client_id s1) (Mk_session_state (se_client_id s1) subs false)) (fst (mem_step m3 (SaveSession (se_client_id s1) (Mk_session_state (se_client_id s1) subs false))))]), [OStore (StoreWill (se_client_id s1) x) (fst (mem_step m4 (StoreWill (se_client_id s1) x)))], l.
    split; [rewrite <- app_assoc; reflexivity|]. split; [exact Hl|]. rewrite Ew. eauto.
  - apply wps_restore. intros l Hl. left. exists i, s2, (l0 ++ [o; OSess i s s'; OOut (Sent c ack); OSess i s1 s1; OStore (SaveSession (se_client_id s1) (Mk_session_state (se_client_id s1) subs false)) (fst (mem_step m3 (SaveSession (se_client_id s1) (Mk_session_state (se_client_id s1) subs false))))]), [], l.
    split; [rewrite <- app_assoc; reflexivity|]. split; [exact Hl|]. rewrite Ew. reflexivity.
Qed.
