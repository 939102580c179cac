(** Facts about Crash.v: without crash and failures it is Server.v. *)
From Verif Require Import Base Codec Tac Maps Topic Property PacketProps Packets TopicTree TreeFacts Storage Broker BrokerFacts Auth Session Server
  SpecServer SessionFacts ServerFacts HandlerFacts HistoryFacts ProvenanceFacts WorldFacts DeliveryFacts StoreFacts ConnectFacts ResumeFacts Crash.
From Coq Require Import Lia.

Fixpoint size (p : prog) : nat :=
  match p with
  | Done => 0
  | Write _ _ p | Attempt _ p => S (size p)
  | Require _ p q => S (Nat.max (size p) (size q))
  end.
(** Without failures, to the end. *)
Fixpoint exec_all (p : prog) (st : mem_store) : mem_store * list output :=
  match p with
  | Done => (st, [])
  | Write c k p => let '(st, o) := exec_all p st in (st, Sent c k :: o)
  | Attempt o p | Require o p _ => exec_all p (snd (mem_step st o))
  end.
Lemma exec_full n : forall p st, (size p <= n)%nat -> exec n [] p st = exec_all p st.
Proof.
  induction n as [|n IH]; intros p st H; destruct p as [|c k p|o p|o p q]; cbn [size] in H; try lia; cbn [exec exec_all tl]; auto;
    rewrite ?IH by lia; reflexivity.
Qed.

Definition sends (o : list output) : list output := filter (fun x => match x with Sent _ _ => true | _ => false end) o.

Lemma retained_call_store t m st :
  publish_store t m st = match retained_call t m with Some o => snd (mem_step st o) | None => st end.
Proof.
  unfold publish_store, retained_call. destruct (mg_retain m); [|reflexivity].
  destruct (mg_payload m) as [[|]|]; reflexivity.
Qed.
Lemma exec_end s c i w : nth_error (w_heap w) i = Some s ->
  exec_all (end_prog s) (w_store w) = (w_store (end_connection c i w), []).
Proof.
  intros H. unfold end_prog, end_connection. cbn [set_conns w_heap]. rewrite H. destruct (se_will s) as [x|]; [|reflexivity].
  unfold set_store, w_store, publish_will, broker_publish. cbn [set_broker w_broker bk_store bk_tree put_session set_heap set_conns].
  rewrite retained_call_store. destruct (retained_call (wl_topic x) (will_message x)); reflexivity.
Qed.
Lemma exec_read fs next fail st : exec_all (read_retained fs next fail) st = exec_all next st.
Proof. induction fs as [|f fs IH]; cbn; auto. Qed.
Lemma exec_writes c ks st : exec_all (writes c ks Done) st = (st, map (Sent c) ks).
Proof. induction ks as [|k ks IH]; cbn; [reflexivity|]. now rewrite IH. Qed.

Lemma subscribe_loop_store fs : forall b subs rs subs' b',
  subscribe_loop fs subs b = (rs, subs', b') -> bk_store b' = bk_store b.
Proof.
  induction fs as [|[f q] fs IH]; intros b subs rs subs' b' E; cbn in E; [inv E; reflexivity|].
  destruct (validate_subscribe_filter f).
  + destruct (subscribe_loop fs subs b) as [[rs1 subs1] b1] eqn:E1. inv E. eapply IH; eauto.
  + match type of E with context [subscribe_loop fs ?x ?y] => destruct (subscribe_loop fs x y) as [[rs1 subs1] b1] eqn:E1 end. inv E.
    rewrite (IH _ _ _ _ _ E1). reflexivity.
Qed.
Lemma incoming_store am k s b r s' b' : process_incoming am k s b = (r, s', b') ->
  bk_store b' = match k with
                | Publish p => match validate_publish_topic (pb_topic p) with
                               | Some _ => bk_store b
                               | None => publish_store (pb_topic p) (message_of p) (bk_store b)
                               end
                | _ => bk_store b
                end.
Proof.
  destruct k; cbn [process_incoming]; intros H;
    try (match type of H with context [let '(_, _) := ?x in _] => destruct x end; inv H; reflexivity);
    try (inv H; reflexivity).
  - unfold handle_publish in H. destruct (validate_publish_topic _); [inv H; reflexivity|].
    match type of H with context [let '(_, _) := ?x in _] => destruct x end. inv H. reflexivity.
  - unfold handle_subscribe in H. destruct (subscribe_loop _ _ _) as [[rs subs] b0] eqn:E. inv H.
    eapply subscribe_loop_store; eauto.
Qed.

Lemma exec_packet cfg c i s k w w' o : serves w c i s -> (forall d, k <> Disconnect d) ->
  packet_step cfg c i s k w = (w', o) ->
  exec_all (packet_prog cfg c s k w) (w_store w) = (w_store w', sends o).
Proof.
  intros [Hc Hi] Hk. unfold packet_step, packet_prog.
  destruct (process_incoming (sv_manager cfg) k s (w_broker w)) as [[r s'] b'] eqn:E.
  pose proof (incoming_store _ _ _ _ _ _ _ E) as Hb.
  intros H. set (rest := match r with Ok _ => _ | Err _ => _ | Panic => _ end).
  assert (Hrest : exec_all rest (bk_store b') = (w_store w', sends o)).
  { unfold rest. destruct r as [x|er|].
    - inv H. destruct (inflight_completed k) as [p|]; destruct (is_subscription_change k); destruct x as [x|]; reflexivity.
    - inv H. refine (exec_end s' c i (put_session i s' (set_broker b' w)) _).
      eapply put_same. cbn. eauto.
    - inv H. reflexivity. }
  destruct k; try (rewrite Hb in Hrest; exact Hrest).
  - destruct (validate_publish_topic _); [now rewrite Hb in Hrest|].
    rewrite retained_call_store in Hb. destruct (retained_call _ _) as [op|]; rewrite Hb in Hrest; exact Hrest.
  - rewrite exec_read. rewrite Hb in Hrest. exact Hrest.
Qed.
Lemma exec_out c i s f w w' o : out_step c i s f w = (w', o) ->
  exec_all (out_prog c s f w) (w_store w) = (w_store w', sends o).
Proof.
  unfold out_step, out_prog. destruct (process_outgoing f s (w_broker w)) as [[[p|er|] s']|]; intros H; try (inv H; reflexivity).
  destruct (pb_packet_id p) as [pid|]; destruct (pb_qos p); inv H; reflexivity.
Qed.

Lemma exec_go c u a s r subs infl st :
  exec_all (connect_go c u a s r subs infl) st =
  (if a then let s1 := snd (begin u r s) in
     let st := mem_save_session (se_client_id s1) (Mk_session_state (se_client_id s1) subs false) st in
     match se_will s1 with Some x => mem_store_will (se_client_id s1) x st | None => st end
   else st,
   if a then Sent c (fst (begin u r s)) :: map (fun i => Sent c (Publish (retry_publish i))) infl else []).
Proof.
  unfold connect_go. destruct (begin u r s) as [ack s1]. destruct a; [|reflexivity]. cbn [exec_all snd fst].
  destruct (se_will s1); cbn [exec_all]; rewrite exec_read, exec_writes, map_map; reflexivity.
Qed.
Lemma restore_store fs : forall s b s' b', restore_subscriptions fs s b = (s', b') -> bk_store b' = bk_store b.
Proof.
  induction fs as [|f fs IH]; intros s b s' b' E; cbn in E; [inv E; reflexivity|].
  apply IH in E. exact E.
Qed.
Lemma sends_publishes c (l : list inflight) :
  sends (map (fun i => Sent c (Publish (retry_publish i))) l) = map (fun i => Sent c (Publish (retry_publish i))) l.
Proof. induction l as [|x l IH]; cbn; [reflexivity|]. f_equal. exact IH. Qed.
Lemma exec_connect cfg c k u a w w' o : wf w -> connect_step cfg c k u a w = (w', o) ->
  exec_all (connect_prog cfg c k u a w) (w_store w) = (w_store w', sends o).
Proof.
  intros Hwf. unfold connect_step, connect_prog. destruct (authenticated cfg k); cbn [negb]; [|intros H; inv H; reflexivity].
  destruct (start_session u a k w) as [[ack r] w1] eqn:Es.
  destruct (start_session_spec _ _ _ _ _ _ _ Hwf Es) as (i & subs & wl & infl & s & He & Hack & Hr & Hn & Ho & Hlen & Hm & Hc & Ht & Hst).
  intros H.
  assert (Hout : (w_store w', sends o) = (w_store w1, if a then Sent c ack :: map (fun i => Sent c (Publish (retry_publish i))) infl else [])).
  { destruct a; subst r.
    - cbn [sr_session sr_subs sr_will sr_inflight] in H. rewrite Hn in H.
      destruct (restore_subscriptions subs _ (w_broker w1)) as [s2 b2] eqn:Er. apply restore_store in Er.
      inv H. cbn [sends]. unfold sends. cbn [filter]. f_equal; [unfold w_store; cbn; exact Er|]. f_equal. apply sends_publishes.
    - inv H. reflexivity. }
  rewrite Hout, Hst, Hack. clear Hout H Es Hr. unfold resumes, connect_store.
  destruct He as [s0 E1 E2 E3|subs wl infl E1 E2 E3 E4].
  - rewrite E1, E2, E3. cbn [negb andb orb is_some]. rewrite exec_go. destruct a; reflexivity.
  - destruct (cf_clean_start (c_flags k)) eqn:Ecl.
    + destruct (E3 eq_refl) as (-> & -> & ->). cbn [exec_all negb andb]. rewrite exec_go. destruct a; reflexivity.
    + destruct E2 as [|E2]; [discriminate|]. destruct (E4 eq_refl) as (-> & -> & ->). rewrite E2. cbn [exec_all mem_step snd negb andb orb is_some].
      destruct (mem_load_session _ (w_store w)); cbn [exec_all mem_step snd is_some]; rewrite exec_go; destruct a; reflexivity.
Qed.

Lemma exec_step cfg w e w' o : wf w -> step cfg w e = (w', o) -> exec_all (program cfg w e) (w_store w) = (w_store w', sends o).
Proof.
  intros Hwf H. unfold program.
  destruct e as [c first u a|c k|c f|c|c|]; cbn [step] in H.
  - destruct (is_some _); [inv H; reflexivity|]. destruct first as [[]|]; try (inv H; reflexivity). eapply exec_connect; eauto.
  - destruct (aget Nat.eqb c (w_conns w)) as [i|] eqn:Ec; [|inv H; reflexivity].
    destruct (nth_error (w_heap w) i) as [s|] eqn:Es; [|inv H; reflexivity].
    destruct k; try (eapply exec_packet; [split; eauto|discriminate|exact H]).
    inv H. unfold disconnect_step. cbn [exec_all].
    refine (exec_end (set_will None s) c i (set_store (mem_delete_will (se_client_id s) (w_store w)) (put_session i (set_will None s) w)) _).
    eapply put_same. eauto.
  - destruct (aget Nat.eqb c (w_conns w)) as [i|] eqn:Ec; [|inv H; reflexivity].
    destruct (nth_error (w_heap w) i) as [s|] eqn:Es; [|inv H; reflexivity].
    eapply exec_out; eauto.
  - destruct (aget Nat.eqb c (w_conns w)) as [i|] eqn:Ec; [|inv H; reflexivity].
    destruct (nth_error (w_heap w) i) as [s|] eqn:Es; [|inv H; reflexivity].
    inv H. exact (exec_end s c i w Es).
  - destruct (aget Nat.eqb c (w_conns w)) as [i|] eqn:Ec; [|inv H; reflexivity].
    destruct (nth_error (w_heap w) i) as [s|] eqn:Es; inv H; reflexivity.
  - inv H. cbn [exec_all]. f_equal. unfold sends. induction (w_conns w) as [|x l IH]; cbn; auto.
Qed.

(** ** What a crash leaves *)
(** One entry of the store. *)
Inductive key := KSession (id : bytes) | KRetained (t : bytes) | KWill (id : bytes) | KInflight (id : bytes) (n : N).
Inductive value := VSession (x : option session_state) | VRetained (x : option message) | VWill (x : option will) | VInflight (x : option inflight).
Definition entry (k : key) (st : mem_store) : value :=
  match k with
  | KSession id => VSession (mem_load_session id st)
  | KRetained t => VRetained (aget bytes_eqb t (ms_retained st))
  | KWill id => VWill (mem_get_will id st)
  | KInflight id n => VInflight (mem_get_inflight id n st)
  end.
Definition touches (k : key) (o : sop) : bool :=
  match k, o with
  | KSession id, (SaveSession id' _ | DeleteSession id') => bytes_eqb id id'
  | KRetained t, StoreRetained t' _ => bytes_eqb t t'
  | KRetained _, ClearRetained => true
  | KWill id, (StoreWill id' _ | DeleteWill id') => bytes_eqb id id'
  | KInflight id n, (StoreInflight id' n' _ | RemoveInflight id' n') => bytes_eqb id id' && N.eqb n n'
  | _, _ => false
  end.
Lemma untouched k o st : touches k o = false -> entry k (snd (mem_step st o)) = entry k st.
Proof.
  destruct k as [id|t|id|id n]; destruct o; cbn [touches]; try discriminate; try reflexivity; intros H; cbn [entry mem_step snd]; f_equal;
    try (unfold mem_remove_inflight; destruct (aget bytes_eqb client (ms_inflight st)); reflexivity).
  - unfold mem_load_session, mem_save_session. cbn. rewrite aget_aput by apply beqb_spec. now rewrite H.
  - unfold mem_load_session, mem_delete_session. cbn. rewrite aget_adel by apply beqb_spec. now rewrite H.
  - unfold mem_store_retained. cbn. match goal with |- context [match ?x with Some _ => _ | None => _ end] => destruct x end; [rewrite aget_aput by apply beqb_spec|rewrite aget_adel by apply beqb_spec]; now rewrite H.
  - unfold mem_get_will, mem_store_will. cbn. rewrite aget_aput by apply beqb_spec. now rewrite H.
  - unfold mem_get_will, mem_delete_will. cbn. rewrite aget_adel by apply beqb_spec. now rewrite H.
  - unfold mem_get_inflight, mem_store_inflight. cbn. rewrite aget_aput by apply beqb_spec.
    destruct (bytes_eqb id client) eqn:E; [|reflexivity]. apply beqb_spec in E. subst client.
    rewrite aget_aput by apply N.eqb_eq. cbn in H. rewrite H. unfold inflight_of. destruct (aget bytes_eqb id (ms_inflight st)); reflexivity.
  - unfold mem_get_inflight, mem_remove_inflight. destruct (aget bytes_eqb client (ms_inflight st)) as [l|] eqn:El; [|reflexivity].
    cbn. rewrite aget_aput by apply beqb_spec. destruct (bytes_eqb id client) eqn:E; [|reflexivity]. apply beqb_spec in E. subst client.
    rewrite El, aget_adel by apply N.eqb_eq. cbn in H. now rewrite H.
Qed.

(** Along the way without failures: no call touches [k]; at most one does. *)
Fixpoint spares (k : key) (p : prog) : Prop :=
  match p with
  | Done => True
  | Write _ _ p => spares k p
  | Attempt o p | Require o p _ => touches k o = false /\ spares k p
  end.
Fixpoint once (k : key) (p : prog) : Prop :=
  match p with
  | Done => True
  | Write _ _ p => once k p
  | Attempt o p | Require o p _ => (touches k o = false /\ once k p) \/ spares k p
  end.
Lemma spares_entry k p : spares k p -> forall n st, entry k (fst (exec n [] p st)) = entry k st /\ entry k (fst (exec_all p st)) = entry k st.
Proof.
  induction p as [|c x p IH|o p IH|o p IH q _]; intros S n st; destruct n as [|n]; cbn [exec exec_all tl fst]; auto; cbn [spares] in S.
  - destruct (IH S O st) as [_ H]. destruct (exec_all p st). auto.
  - destruct (IH S n st) as [H1 H2]. destruct (exec n [] p st), (exec_all p st). auto.
  - destruct S as [T S]. split; auto. rewrite (proj2 (IH S O _)). now apply untouched.
  - destruct S as [T S]. destruct (IH S n (snd (mem_step st o))) as [H1 H2]. rewrite H1, H2. split; now apply untouched.
  - destruct S as [T S]. split; auto. rewrite (proj2 (IH S O _)). now apply untouched.
  - destruct S as [T S]. destruct (IH S n (snd (mem_step st o))) as [H1 H2]. rewrite H1, H2. split; now apply untouched.
Qed.
Lemma once_entry k p : once k p -> forall n st,
  entry k (fst (exec n [] p st)) = entry k st \/ entry k (fst (exec n [] p st)) = entry k (fst (exec_all p st)).
Proof.
  induction p as [|c x p IH|o p IH|o p IH q _]; intros S n st; destruct n as [|n]; cbn [exec exec_all tl fst]; auto; cbn [once] in S.
  - destruct (IH S n st) as [H|H]; destruct (exec n [] p st), (exec_all p st); auto.
  - destruct S as [[T S]|S].
    + destruct (IH S n (snd (mem_step st o))) as [H|H]; auto. left. rewrite H. now apply untouched.
    + right. destruct (spares_entry k p S n (snd (mem_step st o))) as [H1 H2]. congruence.
  - destruct S as [[T S]|S].
    + destruct (IH S n (snd (mem_step st o))) as [H|H]; auto. left. rewrite H. now apply untouched.
    + right. destruct (spares_entry k p S n (snd (mem_step st o))) as [H1 H2]. congruence.
Qed.

Lemma spares_once k p : spares k p -> once k p.
Proof. induction p as [|c x p IH|o p IH|o p IH q _]; cbn; auto; intros [H1 H2]; left; auto. Qed.
Lemma spares_read k fs p q : spares k p -> spares k (read_retained fs p q).
Proof. induction fs as [|f fs IH]; cbn; auto. intros H. split; auto. destruct k; reflexivity. Qed.
Lemma once_read k fs p q : once k p -> once k (read_retained fs p q).
Proof. induction fs as [|f fs IH]; cbn; auto. intros H. left. split; auto. destruct k; reflexivity. Qed.
Lemma spares_writes k c l : spares k (writes c l Done).
Proof. induction l; cbn; auto. Qed.

(** A CONNECT with clean start of this identifier deletes before it stores. *)
Definition clean_of (k : key) (e : event) : Prop :=
  exists c q u a id, e = EFirst c (Some (Connect q)) u a /\ cf_clean_start (c_flags q) = true /\ presented q = id /\ (k = KSession id \/ k = KWill id).
Lemma clean_dec k c q u a : clean_of k (EFirst c (Some (Connect q)) u a) \/
  (cf_clean_start (c_flags q) = true -> touches k (DeleteSession (presented q)) = false /\ touches k (DeleteWill (presented q)) = false).
Proof.
  destruct (cf_clean_start (c_flags q)) eqn:E; [|right; discriminate].
  destruct k as [id|t|id|id n]; cbn [touches]; try (right; auto; fail);
    destruct (bytes_eqb id (presented q)) eqn:Eb; auto; left; apply beqb_spec in Eb; subst id; exists c, q, u, a, (presented q); auto.
Qed.
Lemma once_end k s : once k (end_prog s).
Proof.
  unfold end_prog. destruct (se_will s) as [x|]; [|exact I].
  assert (H : once k (Attempt (DeleteWill (se_client_id s)) Done)) by (right; exact I).
  unfold retained_call. destruct (mg_retain (will_message x)); [|exact H].
  destruct k; destruct (mg_payload (will_message x)) as [[|]|]; try (left; split; [reflexivity|exact H]); right; cbn; auto.
Qed.
Lemma once_go k c u a s r subs infl : once k (connect_go c u a s r subs infl).
Proof.
  unfold connect_go. destruct (begin u r s) as [ack s1]. destruct a; [|exact I]. cbn [once].
  assert (H : spares k (read_retained subs (writes c (map (fun i => Publish (retry_publish i)) infl) Done) Done)) by apply spares_read, spares_writes.
  destruct (se_will s1) as [x|]; [|right; exact H]. cbn [once spares touches].
  destruct k; try (right; split; [reflexivity|exact H]). left. auto.
Qed.
(** A PUBLISH that ends the connection may be followed by the will on the same topic. *)
Definition fatal_publish (k : key) (e : event) : Prop :=
  exists c p t, e = EPacket c (Publish p) /\ k = KRetained t /\
    (pb_qos p = QInvalid \/ (pb_qos p <> AtMostOnce /\ pb_packet_id p = None)).
Lemma once_program cfg w e k : clean_of k e \/ fatal_publish k e \/ once k (program cfg w e).
Proof.
  unfold program. destruct e as [c first u a|c x|c f|c|c|]; try (right; right; exact I).
  - destruct (is_some _); [right; right; exact I|]. destruct first as [[]|]; try (right; right; exact I).
    destruct (clean_dec k c c0 u a) as [H|H]; [left; exact H|right; right]. unfold connect_prog.
    destruct (negb _); [exact I|]. destruct (cf_clean_start (c_flags c0)).
    + destruct (H eq_refl) as [H1 H2]. left. split; [exact H1|]. left. split; [exact H2|]. apply once_go.
    + assert (R : forall id, touches k (LoadSession id) = false /\ touches k (GetWill id) = false /\ touches k (GetAllInflight id) = false)
        by (intros; destruct k; auto).
      destruct (aget bytes_eqb _ (w_manager w)) as [i|].
      * destruct (nth_error _ i); [apply once_go|exact I].
      * left. split; [apply R|]. destruct (mem_load_session _ _); [|apply once_go].
        left. split; [apply R|]. left. split; [apply R|]. apply once_go.
  - right. destruct (aget Nat.eqb c (w_conns w)) as [i|]; [|right; exact I]. destruct (nth_error (w_heap w) i) as [s|]; [|right; exact I].
    assert (P : forall x, fatal_publish k (EPacket c x) \/ once k (packet_prog cfg c s x w)).
    { clear x. intros x. unfold packet_prog. destruct (process_incoming _ x s _) as [[r s'] b'] eqn:E.
      set (rest := match r with Ok _ => _ | Err _ => _ | Panic => _ end).
      assert (Hr : once k rest).
      { unfold rest. destruct r as [y|er|]; [|apply once_end|exact I].
        assert (Hw : spares k (match y with Some z => Write c z Done | None => Done end)) by (destruct y; exact I).
        destruct (inflight_completed x) as [n|] eqn:En; destruct (is_subscription_change x) eqn:Ei; cbn [once].
        - destruct x; discriminate.
        - right. exact Hw.
        - right. exact Hw.
        - apply spares_once, Hw. }
      destruct x; auto.
      - destruct (validate_publish_topic _) eqn:Ev; auto. destruct (retained_call _ _) as [o|] eqn:Eo; auto.
        (* only the retained message is touched, unless the connection ends *)
        cbn [once]. destruct (touches k o) eqn:Et; [|right; left; auto].
        assert (Hk : exists t, k = KRetained t).
        { unfold retained_call in Eo. destruct (mg_retain _); [|discriminate]. destruct (mg_payload _) as [[|]|]; injection Eo as <-; destruct k; try discriminate; eauto. }
        destruct Hk as [t ->]. destruct r as [y|er|]; [right; right; unfold rest; destruct y; exact I| |right; right; exact I].
        left. exists c. eexists. exists t. split; [reflexivity|]. split; [reflexivity|].
        cbn [process_incoming] in E. unfold handle_publish in E. rewrite Ev in E.
        destruct (pb_qos _); destruct (pb_packet_id _); inv E; auto; right; split; auto; discriminate.
      - right. apply once_read, Hr. }
    destruct x; auto. right. cbn [once]. right. exact I.
  - right; right. destruct (aget Nat.eqb c (w_conns w)) as [i|]; [|exact I]. destruct (nth_error (w_heap w) i) as [s|]; [|exact I].
    unfold out_prog. destruct (process_outgoing f s (w_broker w)) as [[[p|er|] s']|]; try exact I.
    destruct (pb_packet_id p); destruct (pb_qos p); cbn [once spares]; auto.
  - right; right. destruct (aget Nat.eqb c (w_conns w)) as [i|]; [|exact I]. destruct (nth_error (w_heap w) i) as [s|]; [|exact I].
    apply once_end.
  - right; right. destruct (aget Nat.eqb c (w_conns w)) as [i|]; [|exact I]. destruct (nth_error (w_heap w) i); exact I.
Qed.
