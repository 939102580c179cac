(** The handlers do not look at properties, options and reasons. *)
From Verif Require Import Base Codec Maps Tac Topic Property PacketProps Packets TopicTree Storage Broker Auth Session Server SpecServer
  Conc SpecConc ConcFacts SpecWishes.

(** What the broker reads of a session. *)
Record sim (s s' : session) : Prop := {
  si_version : c_protocol_version (se_connect s) = c_protocol_version (se_connect s');
  si_name : cl_client_id (c_payload (se_connect s)) = cl_client_id (c_payload (se_connect s'));
  si_id : se_client_id s = se_client_id s';
  si_subs : se_subs s = se_subs s';
  si_will : se_will s = se_will s';
  si_auth : se_auth s = se_auth s'
}.
Lemma sim_refl s : sim s s.
Proof. constructor; reflexivity. Qed.
Record wsim (w w' : world) : Prop := {
  ws_heap : Forall2 sim (w_heap w) (w_heap w');
  ws_manager : w_manager w = w_manager w';
  ws_broker : w_broker w = w_broker w';
  ws_conns : w_conns w = w_conns w'
}.

(** Programs that do the same on such sessions. *)
Inductive like : code -> code -> Prop :=
| lk_finish : like Finish Finish
| lk_emit o k k' : like k k' -> like (Emit o k) (Emit o k')
| lk_sess i f f' : (forall s s' n, sim s s' -> sim (fst (f s n)) (fst (f' s' n))) -> (forall s s' n, sim s s' -> like (snd (f s n)) (snd (f' s' n))) ->
    like (Sess i f) (Sess i f')
| lk_sub f k k' : (forall n, like (k n) (k' n)) -> like (Sub f k) (Sub f k')
| lk_walk t k k' : (forall n, like (k n) (k' n)) -> like (Walk t k) (Walk t k')
| lk_send p m k k' : like k k' -> like (Send p m k) (Send p m k')
| lk_leave k k' : like k k' -> like (Leave k) (Leave k')
| lk_store o k k' : (forall r, like (k r) (k' r)) -> like (Store o k) (Store o k')
| lk_find id k k' : (forall r, like (k r) (k' r)) -> like (Find id k) (Find id k')
| lk_forget id k k' : like k k' -> like (Forget id k) (Forget id k')
| lk_new id s s' k k' : sim s s' -> (forall i, like (k i) (k' i)) -> like (New id s k) (New id s' k')
| lk_attach i k k' : like k k' -> like (Attach i k) (Attach i k')
| lk_detach k k' : like k k' -> like (Detach k) (Detach k')
| lk_acquire l k k' : like k k' -> like (Acquire l k) (Acquire l k')
| lk_release l k k' : like k k' -> like (Conc.Release l k) (Conc.Release l k').
Create HintDb like.
#[local] Hint Constructors like : like.
#[local] Hint Resolve sim_refl : like.

Lemma like_sends ps m k k' : like k k' -> like (sends ps m k) (sends ps m k').
Proof. induction ps; simpl; auto with like. Qed.
Lemma like_route t m k k' : like k k' -> like (route t m k) (route t m k').
Proof. intros H. constructor. intros ps. apply like_sends. constructor. exact H. Qed.
Lemma like_publish t m k k' : like k k' -> like (publish t m k) (publish t m k').
Proof. intros H. unfold publish. destruct (mg_retain m); [destruct (mg_payload m) as [[|]|]; constructor; intros _|]; apply like_route, H. Qed.
Lemma like_id i k k' : (forall id, like (k id) (k' id)) -> like (client_id_of i k) (client_id_of i k').
Proof. intros H. constructor; intros s s' n Hs; simpl; [exact Hs|]. rewrite (si_id _ _ Hs). apply H. Qed.
Lemma sim_will x s s' : sim s s' -> sim (set_will x s) (set_will x s').
Proof. intros []. constructor; auto. Qed.
Lemma sim_subs x s s' : sim s s' -> sim (set_subs x s) (set_subs x s').
Proof. intros []. constructor; auto. Qed.
Lemma sim_auth x s s' : sim s s' -> sim (set_auth x s) (set_auth x s').
Proof. intros []. constructor; auto. Qed.
Lemma sim_unacked x x' s s' : sim s s' -> sim (set_unacked x s) (set_unacked x' s').
Proof. intros []. constructor; auto. Qed.
Lemma sim_pubrecs x x' s s' : sim s s' -> sim (set_pubrecs x s) (set_pubrecs x' s').
Proof. intros []. constructor; auto. Qed.
#[local] Hint Resolve like_publish like_id sim_will sim_subs sim_auth sim_unacked sim_pubrecs : like.

Lemma like_end c i : like (end_code c i) (end_code c i).
Proof.
  constructor; intros s s' n Hs; cbn [fst snd]; [apply sim_will, Hs|]. rewrite (si_will _ _ Hs).
  destruct (se_will s'); auto 20 with like.
Qed.
#[local] Hint Resolve like_end : like.
Lemma like_respond c r : like (respond c r) (respond c r).
Proof. destruct r; simpl; auto with like. Qed.
#[local] Hint Resolve like_respond : like.
Lemma like_disconnect c i : like (disconnect_code c i) (disconnect_code c i).
Proof. constructor; intros s s' n Hs; cbn [fst snd]; auto 20 with like. Qed.
Lemma like_publish_code c i p p' : same_publish p p' -> like (publish_code c i p) (publish_code c i p').
Proof.
  intros (H1 & H2 & H3 & H4 & H5 & H6). unfold publish_code.
  assert (Hm : message_of p = message_of p') by (unfold message_of; congruence). rewrite H2, H4, H5, Hm.
  destruct (validate_publish_topic (pb_topic p')); [apply like_end|].
  destruct (pb_qos p'); [|destruct (pb_packet_id p')|destruct (pb_packet_id p')|]; auto with like.
  constructor; intros s s' n0 Hs; cbn [fst snd]; auto with like.
Qed.
Lemma like_subscribe_one i f k k' : like k k' -> like (subscribe_one i f k) (subscribe_one i f k').
Proof.
  intros H. constructor. intros n. constructor. intros r. constructor; intros s s' m Hs; cbn [fst snd]; [|exact H].
  rewrite (si_subs _ _ Hs). apply sim_subs, Hs.
Qed.
Lemma like_subscribe_all i fs : forall fs' k k', map fst fs = map fst fs' -> (forall rs, like (k rs) (k' rs)) ->
  like (subscribe_all i fs k) (subscribe_all i fs' k').
Proof.
  induction fs as [|[f o] fs IH]; intros [|[f' o'] fs'] k k' E H; try discriminate; simpl in *; [apply H|].
  injection E as <- E. destruct (validate_subscribe_filter f).
  - apply IH; auto.
  - apply like_subscribe_one, IH; auto.
Qed.
Lemma like_save i k k' : like k k' -> like (save_subscriptions i k) (save_subscriptions i k').
Proof.
  intros H. apply like_id. intros id. constructor; intros s s' n Hs; cbn [fst snd]; [exact Hs|].
  unfold subscription_filters. rewrite (si_subs _ _ Hs). auto with like.
Qed.
Lemma like_subscribe c i p p' : sb_packet_id p = sb_packet_id p' -> map fst (sb_payload p) = map fst (sb_payload p') ->
  like (subscribe_code c i p) (subscribe_code c i p').
Proof.
  intros Hi Hf. constructor. constructor; intros s s' n Hs; cbn [fst snd]; [exact Hs|]. apply like_subscribe_all; [exact Hf|].
  intros rs. constructor. apply like_save. rewrite Hi, (si_version _ _ Hs). auto with like.
Qed.
Lemma like_unsubscribe c i p p' : us_packet_id p = us_packet_id p' -> us_payload p = us_payload p' ->
  like (unsubscribe_code c i p) (unsubscribe_code c i p').
Proof.
  intros Hi Hf. unfold unsubscribe_code. rewrite Hi, Hf.
  constructor; intros s s' n Hs; rewrite (si_subs _ _ Hs); destruct (unsubscribe_loop (us_payload p') (se_subs s')) as [rs subs]; cbn [fst snd].
  - apply sim_subs, Hs.
  - apply like_save. rewrite (si_version _ _ Hs). auto with like.
Qed.
Lemma like_simple c i h h' (after : code -> code) after' :
  (forall s s', sim s s' -> fst (h s) = fst (h' s') /\ sim (snd (h s)) (snd (h' s'))) -> (forall k k', like k k' -> like (after k) (after' k')) ->
  like (simple_code c i h after) (simple_code c i h' after').
Proof.
  intros Hh Ha. constructor; intros s s' n Hs; destruct (Hh _ _ Hs) as [E Hs1]; destruct (h s) as [r t], (h' s') as [r' t']; cbn [fst snd] in *; [exact Hs1|].
  subst r'. destruct r; auto with like.
Qed.
Lemma like_remove i n k k' : like k k' -> like (remove_inflight i n k) (remove_inflight i n k').
Proof. intros H. apply like_id. auto with like. Qed.
Lemma sim_handle_auth am a a' s s' : au_reason a = au_reason a' -> aup_auth_method (au_properties a) = aup_auth_method (au_properties a') ->
  aup_auth_data (au_properties a) = aup_auth_data (au_properties a') -> sim s s' ->
  fst (handle_auth am a s) = fst (handle_auth am a' s') /\ sim (snd (handle_auth am a s)) (snd (handle_auth am a' s')).
Proof.
  intros H1 H2 H3 Hs. unfold handle_auth. rewrite H1, H2, H3, (si_auth _ _ Hs).
  destruct am as [am|]; [|split; auto]. destruct (au_reason a'); try (split; [reflexivity|exact Hs]).
  all: repeat match goal with
    | |- context [match ?a with Some _ => _ | None => _ end] => is_var a; fail 1
    | |- context [match aup_auth_method ?a with _ => _ end] => destruct (aup_auth_method a)
    | |- context [match se_auth ?a with _ => _ end] => destruct (se_auth a)
    | |- context [match aup_auth_data ?a with _ => _ end] => destruct (aup_auth_data a)
    | |- context [if negb ?b then _ else _] => destruct (negb b)
    | |- context [match start_auth ?a ?b ?c with _ => _ end] => destruct (start_auth a b c)
    | |- context [match continue_auth ?a ?b ?c with _ => _ end] => destruct (continue_auth a b c)
    end; split; cbn [fst snd]; try reflexivity; auto with like.
Qed.
Lemma same_packet_code cfg c i k k' : same_packet k k' -> like (packet_code cfg c i k) (packet_code cfg c i k').
Proof.
  assert (Ha : forall a a', ak_packet_id a = ak_packet_id a' -> like (packet_code cfg c i (PubAck a)) (packet_code cfg c i (PubAck a'))).
  { intros a a' H. apply like_simple; [intros s s' Hs; unfold handle_puback; split; cbn [fst snd]; auto with like|]. rewrite H. apply like_remove. }
  assert (Hb : forall a a', ak_packet_id a = ak_packet_id a' -> like (packet_code cfg c i (PubRec a)) (packet_code cfg c i (PubRec a'))).
  { intros a a' H. apply like_simple; [intros s s' Hs; unfold handle_pubrec; cbn [fst snd]; rewrite H; split; auto with like|auto]. }
  assert (Hc : forall a a', ak_packet_id a = ak_packet_id a' -> like (packet_code cfg c i (PubRel a)) (packet_code cfg c i (PubRel a'))).
  { intros a a' H. apply like_simple; [intros s s' Hs; unfold handle_pubrel; cbn [fst snd]; rewrite H; split; auto with like|auto]. }
  assert (Hd : forall a a', ak_packet_id a = ak_packet_id a' -> like (packet_code cfg c i (PubComp a)) (packet_code cfg c i (PubComp a'))).
  { intros a a' H. apply like_simple; [intros s s' Hs; unfold handle_pubcomp; split; cbn [fst snd]; auto with like|]. rewrite H. apply like_remove. }
  assert (He : forall a a', au_reason a = au_reason a' -> aup_auth_method (au_properties a) = aup_auth_method (au_properties a') ->
    aup_auth_data (au_properties a) = aup_auth_data (au_properties a') -> like (packet_code cfg c i (Auth a)) (packet_code cfg c i (Auth a'))).
  { intros a a' H1 H2 H3. apply like_simple; [intros s s' Hs; apply sim_handle_auth; auto|auto]. }
  destruct 1 as [k| | | | | | | | | ]; try (cbn [packet_code]; auto using like_publish_code, like_subscribe, like_unsubscribe, like_disconnect; fail); auto.
  destruct k; try (apply Ha; reflexivity); try (apply Hb; reflexivity); try (apply Hc; reflexivity); try (apply Hd; reflexivity); try (apply He; reflexivity);
    cbn [packet_code]; auto using like_subscribe, like_unsubscribe, like_disconnect, like_end, like_respond.
  apply like_publish_code. repeat split.
Qed.
Lemma like_out c i f : like (out_code c i f) (out_code c i f).
Proof.
  assert (H : forall s s' n, sim s s' ->
    match process_outgoing f s (Mk_broker n mem_new), process_outgoing f s' (Mk_broker n mem_new) with
    | None, None => True | Some (r, t), Some (r', t') => r = r' /\ sim t t' | _, _ => False end).
  { intros s s' n Hs. unfold process_outgoing. rewrite (si_subs _ _ Hs). destruct (aget bytes_eqb f (se_subs s')) as [st|]; [|exact I].
    destruct (stream_next _ st) as [[m st']|]; [|exact I]. cbv zeta. rewrite ?(si_subs _ _ Hs).
    destruct (mg_packet_id m); [destruct (mg_qos m)|]; split; auto with like. }
  constructor; intros s s' n Hs; specialize (H s s' n Hs); destruct (process_outgoing f s (Mk_broker n mem_new)) as [[r t]|],
    (process_outgoing f s' (Mk_broker n mem_new)) as [[r' t']|]; try contradiction; cbn [fst snd]; auto with like; destruct H as [<- H]; destruct r; cbn [fst snd]; auto with like.
  destruct (pb_packet_id a); [destruct (pb_qos a)|]; auto with like.
Qed.
Lemma like_emits os k k' : like k k' -> like (emits os k) (emits os k').
Proof. induction os; simpl; auto with like. Qed.
Lemma like_restore_all i fs k k' : like k k' -> like (restore_all i fs k) (restore_all i fs k').
Proof. induction fs; simpl; auto using like_subscribe_one. Qed.
Lemma like_restore c i subs wl infl : like (restore_code c i subs wl infl) (restore_code c i subs wl infl).
Proof.
  unfold restore_code. cbv zeta. assert (Hr : forall l, like (emits l (Attach i Finish)) (emits l (Attach i Finish))) by (intros; apply like_emits; auto with like).
  assert (Hw : forall l, like match wl with Some x => Sess i (fun s _ => (set_will (Some x) s, emits l (Attach i Finish))) | None => emits l (Attach i Finish) end
     match wl with Some x => Sess i (fun s _ => (set_will (Some x) s, emits l (Attach i Finish))) | None => emits l (Attach i Finish) end).
  { intros l. destruct wl; auto. constructor; intros s s' n Hs; cbn [fst snd]; auto with like. }
  destruct subs; auto. constructor. apply like_restore_all. constructor. apply Hw.
Qed.
Lemma sim_begin u r s s' : sim s s' -> fst (begin u r s) = fst (begin u r s') /\ sim (snd (begin u r s)) (snd (begin u r s')).
Proof.
  intros [H1 H2 H3 H4 H5 H6]. unfold begin. rewrite H1, H2. destruct (cl_client_id (c_payload (se_connect s'))) eqn:E; (split; [reflexivity|]; constructor; simpl; auto; congruence).
Qed.
Lemma like_begin c i u a r subs wl infl : like (begin_code c i u a r subs wl infl) (begin_code c i u a r subs wl infl).
Proof.
  constructor; intros s s' n Hs; destruct (sim_begin u r _ _ Hs) as [E H]; destruct (begin u r s) as [ack t], (begin u r s') as [ack' t']; cbn [fst snd] in *; [exact H|].
  subst ack'. destruct a; [|auto with like]. constructor. apply like_id. intros id. constructor. intros _.
  constructor; intros x x' m Hx; cbn [fst snd]; [exact Hx|]. rewrite (si_will _ _ Hx). destruct (se_will x'); auto using like_restore with like.
Qed.
Lemma same_will k k' : same_connect k k' -> will_of_connect k = will_of_connect k'.
Proof. intros (H1 & H2 & H3 & H4 & H5 & H6 & H7 & H8). unfold will_of_connect. rewrite H2, H5, H6. reflexivity. Qed.
Lemma like_enter k k' go go' : same_connect k k' -> (forall i, like (go i) (go' i)) -> like (enter_code k go) (enter_code k' go').
Proof.
  intros Hk Hg. pose proof (same_will _ _ Hk) as Hw. destruct Hk as (H1 & H2 & H3 & H4 & H5 & H6 & H7 & H8). unfold enter_code. rewrite H4.
  constructor. intros [i|].
  - constructor; intros s s' n Hs; cbn [fst snd]; auto. destruct Hs. constructor; simpl; auto.
  - constructor; auto. constructor; simpl; auto.
Qed.
Lemma like_connect cfg c k k' u a : same_connect k k' -> like (connect_code cfg c k u a) (connect_code cfg c k' u a).
Proof.
  intros Hk. pose proof Hk as (H1 & H2 & H3 & H4 & H5 & H6 & H7 & H8). unfold connect_code. cbv zeta.
  replace (authenticated cfg k) with (authenticated cfg k') by (unfold authenticated; rewrite H7, H8; reflexivity).
  rewrite H1, H2, H4. destruct (negb _); [auto with like|].
  assert (Hg : forall r subs wl infl, like (enter_code k (fun i => begin_code c i u a r subs wl infl)) (enter_code k' (fun i => begin_code c i u a r subs wl infl)))
    by (intros; apply like_enter; auto using like_begin).
  constructor. destruct (cf_clean_start _); [auto with like|]. constructor. intros [i|]; [apply Hg|]. constructor. intros r. destruct r as [| [st|] | | | | |]; auto with like.
Qed.
Lemma like_handler cfg sv e e' : same_event e e' -> like (handler cfg sv e) (handler cfg sv e').
Proof.
  destruct 1 as [e|c k k' u a H|c k k' H]; simpl.
  - destruct e as [c [[]|] u a|c k|c f|c|c|]; simpl; destruct sv; auto using same_packet_code, sp_same, like_out with like.
    apply like_connect. repeat split.
  - destruct sv; auto using like_connect with like.
  - destruct sv; auto using same_packet_code with like.
Qed.
Lemma same_conn e e' : same_event e e' -> event_conn e = event_conn e'.
Proof. destruct 1; reflexivity. Qed.
Lemma same_restart e e' : same_event e e' -> e <> ERestart -> e' <> ERestart.
Proof. destruct 1; congruence. Qed.

(** ** Schedules *)
Inductive osim : obs -> obs -> Prop :=
| os_sess i s s' t t' : sim t t' -> osim (OSess i s t) (OSess i s' t')
| os_new id i s s' : sim s s' -> osim (ONew id i s) (ONew id i s')
| os_other o : (forall i s t, o <> OSess i s t) -> (forall id i s, o <> ONew id i s) -> osim o o.
Lemma sim_set i s s' : sim s s' -> forall h h', Forall2 sim h h' -> Forall2 sim (list_set i s h) (list_set i s' h').
Proof. intros Hs. induction i as [|i IH]; intros h h' [|]; simpl; constructor; auto. Qed.
Lemma apply_sim c o o' w w' : wsim w w' -> osim o o' -> wsim (apply c o w) (apply c o' w').
Proof.
  intros [H1 H2 H3 H4] [i s s' t t' Ht|id i s s' Hs|o0 N1 N2].
  - constructor; simpl; auto. apply sim_set; auto.
  - constructor; simpl; auto. + apply Forall2_app; auto. + congruence.
  - destruct o0; try (exfalso; eapply N1; reflexivity); try (exfalso; eapply N2; reflexivity); constructor; simpl; auto; try congruence; unfold w_store; congruence.
Qed.
Lemma f2_nth (h h' : list session) : Forall2 sim h h' -> forall i s, nth_error h i = Some s -> exists s', nth_error h' i = Some s' /\ sim s s'.
Proof. induction 1; intros [|i] a Ha; try discriminate; simpl in *; [injection Ha as ->; eauto|eauto]. Qed.
Lemma f2_length (h h' : list session) : Forall2 sim h h' -> length h = length h'.
Proof. induction 1; simpl; congruence. Qed.
Ltac other := apply os_other; intros; discriminate.
Lemma next_like k k' w w' o k1 : like k k' -> wsim w w' -> next k w = Some (o, k1) ->
  exists o' k1', next k' w' = Some (o', k1') /\ osim o o' /\ like k1 k1'.
Proof.
  intros Hk [H1 H2 H3 H4] Hn. destruct Hk as [|x k k' Hk|i f f' F1 F2|f k k' Hk|t k k' Hk|p m k k' Hk|k k' Hk|x k k' Hk|id k k' Hk|id k k' Hk|id s s' k k' Hs Hk|i k k' Hk|k k' Hk|l k k' Hk|l k k' Hk];
    simpl in Hn |- *; try discriminate; try (injection Hn as <- <-; unfold w_store; rewrite <- ?H2, <- ?H3; do 2 eexists; split; [reflexivity|]; split; [other|auto]; fail).
  - destruct (nth_error (w_heap w) i) as [s|] eqn:E; [|discriminate]. destruct (f2_nth _ _ H1 _ _ E) as (s' & E' & Hs). rewrite E', <- H3.
    specialize (F1 s s' (bk_tree (w_broker w)) Hs). specialize (F2 s s' (bk_tree (w_broker w)) Hs).
    destruct (f s _) as [t u], (f' s' _) as [t' u']. injection Hn as <- <-. do 2 eexists. split; [reflexivity|]. split; [constructor|]; auto.
  - injection Hn as <- <-. rewrite (f2_length _ _ H1). do 2 eexists. split; [reflexivity|]. split; [constructor; auto|auto].
Qed.
Record csim (x x' : conf) : Prop := {
  cs_world : wsim (cn_world x) (cn_world x');
  cs_tasks : forall c, match aget Nat.eqb c (cn_tasks x), aget Nat.eqb c (cn_tasks x') with
                       | Some k, Some k' => like k k' | None, None => True | _, _ => False end;
  cs_locks : cn_locks x = cn_locks x';
  cs_readers : cn_readers x = cn_readers x'
}.
Lemma see_step c o o' : osim o o' -> see (IStep c o) = see (IStep c o').
Proof. intros []; reflexivity. Qed.
Lemma step_sim cfg x x' m x1 i : csim x x' -> mstep cfg x m = Some (x1, i) ->
  forall m', match m, m' with MStart e, MStart e' => same_event e e' | MGo c, MGo d => c = d | _, _ => False end ->
  exists x1' i', mstep cfg x' m' = Some (x1', i') /\ csim x1 x1' /\ see i = see i' /\ starts_of [i'] = match m' with MStart e => [e] | _ => [] end.
Proof.
  intros [Cw Ct Cl Cr] Hm m' Hmm. apply mstep_inv in Hm. destruct Hm as [(e & -> & -> & He & Ha & ->)|[(c & -> & -> & Ha & ->)|(c & k & o & k1 & -> & -> & Ha & Hn & Hy & ->)]];
    destruct m' as [e'|c']; try contradiction.
  - pose proof (same_conn _ _ Hmm) as Ec. pose proof (same_restart _ _ Hmm He) as He'. pose proof (Ct (event_conn e)) as Hc. rewrite Ha in Hc.
    destruct (aget Nat.eqb (event_conn e) (cn_tasks x')) eqn:Ha'; [contradiction|].
    assert (Hs : mstep cfg x' (MStart e') = Some (Mk_conf (cn_world x') (aput Nat.eqb (event_conn e') (handler cfg (aget Nat.eqb (event_conn e') (w_conns (cn_world x'))) e') (cn_tasks x')) (cn_locks x') (cn_readers x'), IStart e')).
    { rewrite <- Ec. simpl. destruct e'; try congruence; cbn [event_conn] in *; rewrite <- Ec in *; rewrite Ha'; reflexivity. }
    do 2 eexists. split; [exact Hs|]. split; [|split; [simpl; congruence|reflexivity]]. constructor; simpl; auto.
    intros c. rewrite <- Ec, !(aget_aput Nat.eqb Nat.eqb_eq). destruct (Nat.eqb c (event_conn e)) eqn:E; [|apply Ct].
    rewrite (ws_conns _ _ Cw). apply like_handler, Hmm.
  - subst c'. pose proof (Ct c) as Hc. rewrite Ha in Hc. destruct (aget Nat.eqb c (cn_tasks x')) as [k'|] eqn:Ha'; [|contradiction]. inversion Hc; subst k'.
    do 2 eexists. split; [simpl; rewrite Ha'; reflexivity|]. split; [|split; reflexivity]. constructor; simpl; auto.
    intros d. rewrite !(aget_adel Nat.eqb Nat.eqb_eq). destruct (Nat.eqb d c); [exact I|apply Ct].
  - subst c'. pose proof (Ct c) as Hc. rewrite Ha in Hc. destruct (aget Nat.eqb c (cn_tasks x')) as [k'|] eqn:Ha'; [|contradiction].
    destruct (next_like _ _ _ _ _ _ Hc Cw Hn) as (o' & k1' & Hn' & Ho & Hk1).
    assert (Hy' : may c o' x' = true).
    { rewrite <- Hy. destruct Ho as [| |o0 N1 N2]; unfold may, free_for; rewrite <- ?Cl, <- ?Cr; reflexivity. }
    assert (Hs : mstep cfg x' (MGo c) = Some (Mk_conf (apply c o' (cn_world x')) (aput Nat.eqb c k1' (cn_tasks x')) (relock c o' (cn_locks x')) (reread c o' (cn_readers x')), IStep c o')).
    { simpl. rewrite Ha'. destruct k'; try (rewrite Hn', Hy'; reflexivity). discriminate. }
    do 2 eexists. split; [exact Hs|]. split; [|split; [apply see_step, Ho|reflexivity]]. constructor; simpl.
    + apply apply_sim; auto.
    + intros d. rewrite !(aget_aput Nat.eqb Nat.eqb_eq). destruct (Nat.eqb d c); [exact Hk1|apply Ct].
    + rewrite <- Cl. destruct Ho as [| |o0 N1 N2]; reflexivity.
    + rewrite <- Cr. destruct Ho as [| |o0 N1 N2]; reflexivity.
Qed.
Lemma starts_cons i tr : starts_of (i :: tr) = starts_of [i] ++ starts_of tr.
Proof. destruct i; reflexivity. Qed.
Lemma runs_sim cfg x tr y : mruns cfg x tr y -> forall x' es', csim x x' -> Forall2 same_event (starts_of tr) es' ->
  exists tr' y', mruns cfg x' tr' y' /\ csim y y' /\ starts_of tr' = es' /\ map see tr' = map see tr.
Proof.
  induction 1 as [x|x m x1 i tr x2 Hm Hr IH]; intros x' es' Hx He.
  - inversion He; subst. exists [], x'. split; [constructor|]. auto.
  - rewrite starts_cons in He.
    assert (Hm' : exists m' es1, match m, m' with MStart e, MStart e' => same_event e e' | MGo c, MGo d => c = d | _, _ => False end
      /\ es' = match m' with MStart e => [e] | _ => [] end ++ es1 /\ Forall2 same_event (starts_of tr) es1).
    { apply mstep_inv in Hm. destruct Hm as [(e & -> & -> & _)|[(c & -> & -> & _)|(c & k & o & k1 & -> & -> & _)]]; simpl in He.
      - inversion He as [|? e' ? es1 H1 H2]; subst. exists (MStart e'), es1. auto.
      - exists (MGo c), es'. auto.
      - exists (MGo c), es'. auto. }
    destruct Hm' as (m' & es1 & Hmm & -> & He1). destruct (step_sim _ _ _ _ _ _ Hx Hm _ Hmm) as (x1' & i' & Hs & Hc & Hsee & Hst).
    destruct (IH _ _ Hc He1) as (tr' & y' & Hr' & Hy & Hst' & Hsee').
    exists (i' :: tr'), y'. split; [econstructor; eauto|]. split; [exact Hy|]. split.
    + rewrite starts_cons. congruence.
    + simpl. congruence.
Qed.
Lemma csim_refl st : csim (conf_on st) (conf_on st).
Proof. constructor; simpl; auto. constructor; simpl; auto. Qed.

(** ** What the broker says *)
Fixpoint says (P : packet -> Prop) (k : code) : Prop :=
  match k with
  | Finish => True
  | Emit o k => match o with Sent _ x => P x | _ => True end /\ says P k
  | Sess _ f => forall s n, says P (snd (f s n))
  | Sub _ k => forall n, says P (k n)
  | Walk _ k => forall ps, says P (k ps)
  | Store _ k => forall r, says P (k r)
  | Find _ k => forall r, says P (k r)
  | New _ _ k => forall i, says P (k i)
  | Send _ _ k | Leave k | Forget _ k | Attach _ k | Detach k | Acquire _ k | Conc.Release _ k => says P k
  end.
Lemma says_next P k w o k1 : says P k -> next k w = Some (o, k1) -> match o with OOut (Sent _ x) => P x | _ => True end /\ says P k1.
Proof.
  destruct k; simpl; intros H E; try discriminate; try (injection E as <- <-; auto; fail).
  destruct (nth_error (w_heap w) i) as [s|]; [|discriminate]. specialize (H s (bk_tree (w_broker w))). destruct (f s _). injection E as <- <-. auto.
Qed.
Section Says.
  Context (cfg : config) (c : nat).
  Notation ok := (says plain).
  Lemma ok_publish t m k : ok k -> ok (publish t m k).
  Proof.
    intros H. assert (Hr : ok (route t m k)) by (simpl; intros ps; induction ps; simpl; auto).
    unfold publish. destruct (mg_retain m); [destruct (mg_payload m) as [[|]|]|]; simpl; auto.
  Qed.
  Lemma ok_end i : ok (end_code c i).
  Proof. simpl. intros s _. destruct (se_will s); [|simpl; auto]. apply ok_publish. simpl. auto. Qed.
  Lemma ok_sub i fs : forall k, (forall rs, ok (k rs)) -> ok (subscribe_all i fs k).
  Proof. induction fs as [|[f o] fs IH]; intros k H; simpl; [apply H|]. destruct (validate_subscribe_filter f); [auto|]. simpl. auto. Qed.
  Lemma ok_simple i h after : (forall s, match fst (h s) with Ok (Some x) => plain x | _ => True end) -> (forall k, ok k -> ok (after k)) ->
    ok (simple_code c i h after).
  Proof.
    intros Hh Ha. simpl. intros s _. specialize (Hh s). destruct (h s) as [[[x|]| |] t]; cbn [fst snd] in *; [apply Ha; simpl; auto|apply Ha; simpl; auto|apply ok_end|simpl; auto].
  Qed.
  Lemma ok_packet i k : ok (packet_code cfg c i k).
  Proof.
    destruct k as [k|k|p|a|a|a|a|p|k|p|k| | |d|a]; cbn [packet_code]; try apply ok_end.
    - unfold publish_code. destruct (validate_publish_topic _); [apply ok_end|].
      destruct (pb_qos p); [|destruct (pb_packet_id p)|destruct (pb_packet_id p)|]; try (apply ok_publish; simpl; auto using ok_end; fail);
        try (apply ok_publish, ok_end). intros s _. cbn [snd]. apply ok_publish. simpl. auto.
    - apply ok_simple; [intros s; exact I|]. intros k H. simpl. auto.
    - apply ok_simple; [|auto]. intros s. split; reflexivity.
    - apply ok_simple; [|auto]. intros s. split; reflexivity.
    - apply ok_simple; [intros s; exact I|]. intros k H. simpl. auto.
    - intros s _. cbn [snd]. apply ok_sub. intros rs. simpl. auto.
    - intros s _. destruct (unsubscribe_loop (us_payload p) (se_subs s)). simpl. auto.
    - simpl. auto.
    - intros s _ s1 _ r. apply ok_end.
    - apply ok_simple; [|auto]. intros s. unfold handle_auth. destruct (sv_manager cfg); [|exact I]. destruct (au_reason a); try exact I.
      + destruct (se_auth s); [|exact I]. destruct (aup_auth_data _); [|exact I]. destruct (continue_auth _ _ _); exact I.
      + destruct (aup_auth_method _); [|exact I]. destruct (negb _); [exact I|]. destruct (start_auth _ _ _); exact I.
  Qed.
  Lemma ok_emits os k : Forall (fun o => match o with Sent _ x => plain x | _ => True end) os -> ok k -> ok (emits os k).
  Proof. induction 1; simpl; auto. Qed.
  Lemma ok_restore i subs wl infl : ok (restore_code c i subs wl infl).
  Proof.
    unfold restore_code. cbv zeta. assert (Hr : ok (emits (map (fun x => Sent c (Publish (retry_publish x))) infl) (Attach i Finish))).
    { apply ok_emits; [|simpl; auto]. apply Forall_forall. intros o Ho. apply in_map_iff in Ho. destruct Ho as (x & <- & _). split; reflexivity. }
    assert (Hw : ok match wl with Some x => Sess i (fun s _ => (set_will (Some x) s, emits (map (fun x => Sent c (Publish (retry_publish x))) infl) (Attach i Finish)))
      | None => emits (map (fun x => Sent c (Publish (retry_publish x))) infl) (Attach i Finish) end) by (destruct wl; [intros s n|]; exact Hr).
    destruct subs as [|f fs]; [exact Hw|]. change (ok (restore_all i (f :: fs) (Conc.Release (LSession i) match wl with Some x => Sess i (fun s _ => (set_will (Some x) s, emits (map (fun x => Sent c (Publish (retry_publish x))) infl) (Attach i Finish)))
      | None => emits (map (fun x => Sent c (Publish (retry_publish x))) infl) (Attach i Finish) end))).
    induction (f :: fs); simpl; [exact Hw|]. intros _ _ _ _. exact IHl.
  Qed.
  Lemma ok_begin i u a r subs wl infl : ok (begin_code c i u a r subs wl infl).
  Proof.
    intros s n. assert (Hb : plain (fst (begin u r s))).
    { unfold begin. destruct (cl_client_id _); simpl; [|discriminate]. destruct (supports_properties _); [|discriminate]. intros p E. injection E as <-. eexists. reflexivity. }
    destruct (begin u r s) as [ack t]. cbn [fst snd] in *. destruct a; [|simpl; auto]. simpl. split; [exact Hb|]. intros s1 _ _ s2 _. destruct (se_will s2); simpl; [intros _|]; apply ok_restore.
  Qed.
  Lemma ok_connect k u a : ok (connect_code cfg c k u a).
  Proof.
    unfold connect_code. destruct (negb _); [simpl; split; [discriminate|auto]|]. cbv zeta.
    assert (Hg : forall r subs wl infl, ok (enter_code k (fun i => begin_code c i u a r subs wl infl))).
    { intros. unfold enter_code. simpl. intros [i|]; [intros s n|intros i]; apply ok_begin. }
    match goal with |- says ?P (Acquire _ ?z) => change (says P z) end.
    destruct (cf_clean_start _); [intros _ _; apply Hg|]. intros [i|]; [apply Hg|]. intros r. destruct r as [| [st|] | | | | |]; try apply Hg. intros rw ri. apply Hg.
  Qed.
  Lemma ok_handler sv e : event_conn e = c -> ok (handler cfg sv e).
  Proof.
    destruct e as [d [[]|] u a|d k|d f|d|d|]; intros E; simpl in E; subst; destruct sv as [i|]; try exact I; try (simpl; auto; fail).
    - apply ok_connect.
    - apply ok_packet.
    - intros s n. destruct (process_outgoing f s _) as [[[p| |] t]|] eqn:E; try (simpl; auto; fail).
      assert (Hp : plain (Publish p)).
      { unfold process_outgoing in E. destruct (aget bytes_eqb f (se_subs s)); [|discriminate]. destruct (stream_next _ _) as [[m st]|]; [|discriminate].
        destruct (mg_packet_id m) eqn:E1; [destruct (mg_qos m) eqn:E2|]; inversion E; subst; split; reflexivity. }
      cbn [snd]. destruct (pb_packet_id p); [destruct (pb_qos p)|]; simpl; auto.
    - apply ok_end.
  Qed.
End Says.
Lemma runs_says cfg x tr y : mruns cfg x tr y -> (forall c k, aget Nat.eqb c (cn_tasks x) = Some k -> says plain k) ->
  forall c d k, In (IStep c (OOut (Sent d k))) tr -> plain k.
Proof.
  induction 1 as [|x m x1 i tr x2 Hm Hr IH]; intros Hx c d k Hin; [contradiction|].
  apply mstep_inv in Hm. destruct Hm as [(e & -> & -> & He & Ha & ->)|[(c0 & -> & -> & Ha & ->)|(c0 & k0 & o & k1 & -> & -> & Ha & Hn & Hy & ->)]]; simpl in IH.
  - destruct Hin as [Hin|Hin]; [discriminate|]. eapply IH; [|exact Hin]. intros c1 k1. rewrite (aget_aput Nat.eqb Nat.eqb_eq).
    destruct (Nat.eqb c1 _); [|apply Hx]. intros E. injection E as <-. apply ok_handler with (c := event_conn e). reflexivity.
  - destruct Hin as [Hin|Hin]; [discriminate|]. eapply IH; [|exact Hin]. intros c1 k1. rewrite (aget_adel Nat.eqb Nat.eqb_eq). destruct (Nat.eqb c1 c0); [discriminate|apply Hx].
  - destruct (says_next _ _ _ _ _ (Hx _ _ Ha) Hn) as [Ho Hk]. destruct Hin as [Hin|Hin]; [injection Hin as -> ->; exact Ho|].
    eapply IH; [|exact Hin]. intros c1 k2. rewrite (aget_aput Nat.eqb Nat.eqb_eq). destruct (Nat.eqb c1 c0); [|apply Hx]. intros E. injection E as <-. exact Hk.
Qed.
