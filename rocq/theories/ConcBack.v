(** A client that comes back to a broker that was started again, while other handlers are at work. *)
From Verif Require Import Base Utf8 Codec SpecCodec Tac Maps CodecFacts Topic SpecTopic TopicFacts Property PacketProps Packets
  TopicTree TreeFacts Storage SpecStorage StorageFacts Broker SpecBroker BrokerFacts Auth Session Server SpecServer SessionFacts ServerFacts HandlerFacts
  Conc SpecConc ConcFacts ConcLocks ConcRoute ConcOwn ConcDeliver ConcProv ConcWill SpecLives SpecDurable ConcStore ConcHold.

(** ** The entries of one client in the store *)
Definition entries_t := (option session_state * option will * option (list (N * inflight)))%type.
Definition entries (id : bytes) (m : mem_store) : entries_t :=
  (aget bytes_eqb id (ms_sessions m), aget bytes_eqb id (ms_wills m), aget bytes_eqb id (ms_inflight m)).
Lemma entries_other id m o : key o <> Some id -> entries id (snd (mem_step m o)) = entries id m.
Proof.
  intros H. unfold entries. destruct o as [id' x|id'|id'| |t x|f| |id' x|id'|id'|id' n x|id' n|id' n|id']; cbn [key] in H; try reflexivity; cbn [mem_step snd];
    assert (E : id' <> id) by congruence.
  - cbn. rewrite (aget_put_other _ beqb_spec) by auto. reflexivity.
  - cbn. rewrite (aget_del_other _ beqb_spec) by auto. reflexivity.
  - cbn. rewrite (aget_put_other _ beqb_spec) by auto. reflexivity.
  - cbn. rewrite (aget_del_other _ beqb_spec) by auto. reflexivity.
  - cbn. rewrite (aget_put_other _ beqb_spec) by auto. reflexivity.
  - unfold mem_remove_inflight. destruct (aget bytes_eqb id' (ms_inflight m)); cbn; [|reflexivity]. rewrite (aget_put_other _ beqb_spec) by auto. reflexivity.
Qed.

(** ** The handler of a CONNECT without clean start *)
Section Code.
  Context (c i : nat) (id : bytes) (subs : list bytes) (wl : option will) (infl : list inflight).
  Notation ok := (fun _ : sop => True).
  Definition taken_up (s : session) : Prop := (forall f, In f subs -> subscribed s f) /\ forall w, wl = Some w -> se_will s = Some w.
  Context (pid : N).
  Section Finish.
  Context (A : code -> session -> view_t -> Prop) (v : view_t) (HA : forall k s, k <> Finish -> A k s v) (HF : forall s, taken_up s -> A Finish s v).
  Notation L := (local i id pid ok A).
  Lemma finish_restore s : L (restore_code c i subs wl infl) s v.
  Proof.
    assert (HE : forall o k s, A (Emit o k) s v) by (intros; apply HA; discriminate). assert (HT : forall j k s, A (Attach j k) s v) by (intros; apply HA; discriminate).
    assert (HS : forall j k s, A (Sess j k) s v) by (intros; apply HA; discriminate). assert (HQ : forall l k s, A (Acquire l k) s v) by (intros; apply HA; discriminate).
    assert (HR : forall l k s, A (Release l k) s v) by (intros; apply HA; discriminate). assert (HU : forall j k s, A (Sub j k) s v) by (intros; apply HA; discriminate).
    assert (HO : forall j k s, A (Store j k) s v) by (intros; apply HA; discriminate).
    unfold restore_code. cbv zeta.
    assert (H : forall s, taken_up s -> L (emits (map (fun x => Sent c (Publish (retry_publish x))) infl) (Attach i Finish)) s v).
    { intros s0 H0. induction infl; cbn [map emits local]; auto. }
    assert (Hw : forall s, (forall f, In f subs -> subscribed s f) -> L (match wl with Some x => Sess i (fun s _ => (set_will (Some x) s, emits (map (fun x => Sent c (Publish (retry_publish x))) infl) (Attach i Finish)))
        | None => emits (map (fun x => Sent c (Publish (retry_publish x))) infl) (Attach i Finish) end) s v).
    { intros s0 H0. destruct wl as [w|] eqn:E; [|apply H; split; [exact H0|rewrite E; discriminate]]. cbn [local fst snd]. split; [apply HS|]. split; [reflexivity|]. intros _ _. apply H.
      split; [exact H0|]. rewrite E. intros w' [= ->]. reflexivity. }
    destruct subs as [|f fs] eqn:Es; [apply Hw; intros f []|]. rewrite <- Es in *. clear Es f fs. cbn [local]. split; [apply HQ|].
    assert (Hg : forall l s, (forall f, In f subs -> subscribed s f \/ In f l) -> L (restore_all i l (Release (LSession i)
        match wl with Some x => Sess i (fun s _ => (set_will (Some x) s, emits (map (fun x => Sent c (Publish (retry_publish x))) infl) (Attach i Finish)))
        | None => emits (map (fun x => Sent c (Publish (retry_publish x))) infl) (Attach i Finish) end)) s v).
    { induction l as [|g l IH]; intros s0 H0; cbn [restore_all].
      - cbn [local]. split; [apply HR|]. apply Hw. intros f Hf. destruct (H0 f Hf) as [Hs|[]]; exact Hs.
      - apply local_sub_one; auto. intros s' Hs'. apply IH. intros f Hf. destruct (H0 f Hf) as [Hs|[->|Hs]]; auto; left; apply Hs'; auto. }
    apply Hg. auto.
  Qed.
  End Finish.
  (** All along, the session with the filters [F] and (if [P]) the message [z] are stored; and at the end the session is taken up. *)
  Context (F : bytes -> Prop) (P : Prop) (z : inflight).
  Definition safe (v : view_t) : Prop := (exists y, fst v = Some y /\ forall f, F f -> In f (ss_subscriptions y)) /\ (P -> snd v = Some z).
  Definition at_finish (k : code) (s : session) (v : view_t) : Prop := safe v /\ (k = Finish -> taken_up s).
  Notation L := (local i id pid ok at_finish).
  Lemma finish_begin u r s v : (forall f, F f -> In f subs) -> safe v -> L (begin_code c i u true r subs wl infl) s v.
  Proof.
    intros HF Hv. assert (Hk : forall k s v, safe v -> k <> Finish -> at_finish k s v) by (intros k0 s0 v0 H0 H1; split; [exact H0|contradiction]).
    unfold begin_code, client_id_of. cbn [local]. split; [apply Hk; [exact Hv|discriminate]|]. split; [reflexivity|]. intros _. destruct (begin u r s) as [ack s']. cbn [fst snd]. intros Hid.
    cbn [local fst snd]. split; [apply Hk; [exact Hv|discriminate]|]. split; [apply Hk; [exact Hv|discriminate]|]. split; [reflexivity|]. intros _ _.
    split; [apply Hk; [exact Hv|discriminate]|]. intros _ _. rewrite Hid. cbn [upd]. rewrite bytes_eqb_refl. set (v1 := (_, snd v)).
    assert (Hv1 : safe v1) by (destruct Hv as [_ Hv]; split; [eexists; split; [reflexivity|exact HF]|exact Hv]).
    split; [apply Hk; [exact Hv1|discriminate]|]. split; [reflexivity|]. intros _ _.
    destruct (se_will s'); cbn [local upd]; [split; [apply Hk; [exact Hv1|discriminate]|]; intros _ _|]; (split; [apply Hk; [exact Hv1|discriminate]|]);
      (apply finish_restore; [intros; apply Hk; assumption|intros s0 H0; split; [exact Hv1|intros _; exact H0]]).
  Qed.
  (** It sends all messages in flight, and the connection is served at its end. *)
  Definition told (l : list obs) : Prop :=
    (exists a, In (OOut (Sent c (ConnAck a))) l /\ ca_reason_code a = Success /\ ca_session_present a = true)
    /\ (forall x, In x infl -> In (OOut (Sent c (Publish (retry_publish x)))) l) /\ exists l', l = l' ++ [OAttach i].
  Definition told_later (l : list obs) : Prop := (forall x, In x infl -> In (OOut (Sent c (Publish (retry_publish x)))) l) /\ exists l', l = l' ++ [OAttach i].
  Lemma later_cons o l : told_later l -> told_later (o :: l).
  Proof. intros (H1 & l' & ->). split; [intros x Hx; right; auto|]. exists (o :: l'). reflexivity. Qed.
  Lemma wps_cons o (Q : list obs -> Prop) k : (forall l, told_later l -> Q (o :: l)) -> wps told_later k -> wps (fun l => Q (o :: l)) k.
  Proof. intros H. apply wps_mono. exact H. Qed.
  Lemma later_emits (infl0 : list inflight) : forall Q : list obs -> Prop,
    (forall l, (forall x, In x infl0 -> In (OOut (Sent c (Publish (retry_publish x)))) l) -> (exists l', l = l' ++ [OAttach i]) -> Q l) ->
    wps Q (emits (map (fun x => Sent c (Publish (retry_publish x))) infl0) (Attach i Finish)).
  Proof.
    induction infl0 as [|x infl0 IH]; intros Q HQ; cbn [map emits wps].
    - apply HQ; [intros x []|]. exists []. reflexivity.
    - apply IH. intros l H1 (l' & H2). apply HQ.
      + intros y [->|Hy]; [left; reflexivity|right; auto].
      + exists (OOut (Sent c (Publish (retry_publish x))) :: l'). rewrite H2. reflexivity.
  Qed.
  Lemma later_restore : wps told_later (restore_code c i subs wl infl).
  Proof.
    unfold restore_code. cbv zeta.
    assert (H : wps told_later (emits (map (fun x => Sent c (Publish (retry_publish x))) infl) (Attach i Finish))) by (apply later_emits; intros l H1 H2; split; assumption).
    assert (Hw : wps told_later (match wl with Some x => Sess i (fun s _ => (set_will (Some x) s, emits (map (fun x => Sent c (Publish (retry_publish x))) infl) (Attach i Finish)))
        | None => emits (map (fun x => Sent c (Publish (retry_publish x))) infl) (Attach i Finish) end)).
    { destruct wl; [|exact H]. cbn [wps fst snd]. intros s n. eapply wps_mono; [|exact H]. intros l. apply later_cons. }
    destruct subs as [|f fs] eqn:Es; [exact Hw|]. cbn [wps]. eapply wps_mono; [intros l; apply later_cons|]. generalize (f :: fs). intros l. induction l as [|g l IH]; cbn [restore_all].
    - cbn [wps]. eapply wps_mono; [intros l; apply later_cons|exact Hw].
    - unfold subscribe_one. cbn [wps fst snd]. intros n m s nd. eapply wps_mono; [|exact IH]. intros l0 H0. do 3 apply later_cons. exact H0.
  Qed.
  Lemma told_begin u : wps told (begin_code c i u true true subs wl infl).
  Proof.
    unfold begin_code, client_id_of. cbn [wps]. intros s n. destruct (begin u true s) as [ack s'] eqn:E. cbn [fst snd wps]. intros s1 n1 m1 s2 n2. cbn [fst snd].
    assert (Ha : exists a, ack = ConnAck a /\ ca_reason_code a = Success /\ ca_session_present a = true).
    { unfold begin in E. destruct (cl_client_id _); injection E as <- _; eexists; (split; [reflexivity|split; reflexivity]). }
    destruct Ha as (a & -> & Ha1 & Ha2).
    assert (Hd : forall l, told_later l -> told (OSess i s s' :: OOut (Sent c (ConnAck a)) :: OSess i s1 s1 :: OStore (SaveSession (se_client_id s1) (Mk_session_state (se_client_id s1) subs false))
       (fst (mem_step m1 (SaveSession (se_client_id s1) (Mk_session_state (se_client_id s1) subs false)))) :: OSess i s2 s2 :: l)).
    { intros l Hl. split; [exists a; split; [right; left; reflexivity|auto]|]. unfold told_later in *. change (told_later (OSess i s s' :: OOut (Sent c (ConnAck a)) :: OSess i s1 s1 :: OStore (SaveSession (se_client_id s1) (Mk_session_state (se_client_id s1) subs false))
       (fst (mem_step m1 (SaveSession (se_client_id s1) (Mk_session_state (se_client_id s1) subs false)))) :: OSess i s2 s2 :: l)). do 5 apply later_cons. exact Hl. }
    destruct (se_will s2) as [x|]; cbn [wps]; intros; (eapply wps_mono; [|apply later_restore]); intros l Hl; apply Hd; auto using later_cons.
  Qed.
  (** It subscribes to each of the filters. *)
  Lemma wps_restore_other (f : bytes) (fs : list bytes) : forall k (Q : list obs -> Prop), ~ In f fs ->
    (forall l0, Forall (keeps i f) l0 -> wps (fun l => Q (l0 ++ l)) k) -> wps Q (restore_all i fs k).
  Proof.
    induction fs as [|g fs IH]; intros k Q Hf HQ; cbn [restore_all].
    - apply (HQ []). constructor.
    - unfold subscribe_one. intros n m s n1. cbn [fst snd]. apply IH; [intros H; apply Hf; right; exact H|]. intros l0 H.
      refine (wps_mono _ _ _ _ (HQ (OSub g n :: OStore (GetRetained g) (fst (mem_step m (GetRetained g))) :: OSess i s _ :: l0) _)); [intros l Hl; exact Hl|].
      repeat constructor; auto. simpl. intros _. apply (aget_put_other _ beqb_spec). intros E; apply Hf; left; congruence.
  Qed.
  Lemma wps_restore_all (f : bytes) (fs : list bytes) : forall k (Q : list obs -> Prop), In f fs ->
    (forall l0 n ms s s' l1, aget bytes_eqb f (se_subs s') = Some (Mk_stream ms n) -> Forall (keeps i f) l1 ->
       wps (fun l => Q (l0 ++ OSub f n :: OStore (GetRetained f) (RMessages ms) :: OSess i s s' :: l1 ++ l)) k) ->
    wps Q (restore_all i fs k).
  Proof.
    induction fs as [|g fs IH]; intros k Q Hf HQ; [contradiction|]. cbn [restore_all]. unfold subscribe_one. intros n m s n1. cbn [fst snd].
    destruct (in_dec (list_eq_dec N.eq_dec) f fs) as [Hin|Hout].
    - apply IH; [exact Hin|]. intros l0 n2 ms s2 s2' l1 H1 H2.
      refine (wps_mono _ _ _ _ (HQ (OSub g n :: OStore (GetRetained g) (fst (mem_step m (GetRetained g))) :: OSess i s _ :: l0) _ _ _ _ _ H1 H2)). intros l Hl. exact Hl.
    - destruct Hf as [->|Hf]; [|contradiction]. apply (wps_restore_other f); [exact Hout|]. intros l1 H1.
      destruct (fst (mem_step m (GetRetained f))) as [| | |ms| | |] eqn:Em; try discriminate Em.
      refine (wps_mono _ _ _ _ (HQ [] n ms s _ l1 _ H1)); [intros l Hl; exact Hl|]. simpl. apply (aget_put_same _ beqb_spec).
  Qed.
  Lemma shape_cons f o l : sub_shape i f l -> sub_shape i f (o :: l).
  Proof. intros (l0 & n & ms & s & s' & l1 & -> & H1 & H2). exists (o :: l0), n, ms, s, s', l1. auto. Qed.
  Lemma shape_restore f : In f subs -> wps (sub_shape i f) (restore_code c i subs wl infl).
  Proof.
    intros Hf. unfold restore_code. cbv zeta. destruct subs as [|g fs] eqn:Es; [contradiction|]. rewrite <- Es in *. clear Es g fs. cbn [wps].
    apply (wps_restore_all f); [exact Hf|]. intros l0 n ms s s' l1 H1 H2. cbn [wps].
    assert (He : forall l2, Forall (keeps i f) l2 -> wps (fun l => sub_shape i f (OAcquire (LSession i) :: l0 ++ OSub f n :: OStore (GetRetained f) (RMessages ms) :: OSess i s s' :: l2 ++ l))
      (emits (map (fun x => Sent c (Publish (retry_publish x))) infl) (Attach i Finish))).
    { clear - H1. induction infl as [|x l IH]; intros l2 H3; cbn [map emits wps].
      - exists (OAcquire (LSession i) :: l0), n, ms, s, s', (l2 ++ [OAttach i]). split; [reflexivity|]. split; [exact H1|]. apply Forall_app. split; [exact H3|]. repeat constructor.
      - refine (wps_mono _ _ _ _ (IH (l2 ++ [OOut (Sent c (Publish (retry_publish x)))]) _)).
        + intros l3. rewrite <- app_assoc. auto.
        + apply Forall_app. split; [exact H3|]. repeat constructor. }
    destruct wl as [w|].
    - cbn [wps fst snd]. intros s3 n3. refine (wps_mono _ _ _ _ (He (l1 ++ [ORelease (LSession i); OSess i s3 (set_will (Some w) s3)]) _)).
      + intros l3. rewrite <- app_assoc. auto.
      + apply Forall_app. split; [exact H2|]. repeat constructor.
    - refine (wps_mono _ _ _ _ (He (l1 ++ [ORelease (LSession i)]) _)).
      + intros l3. rewrite <- app_assoc. auto.
      + apply Forall_app. split; [exact H2|]. repeat constructor.
  Qed.
  Lemma shape_begin f u r : In f subs -> wps (sub_shape i f) (begin_code c i u true r subs wl infl).
  Proof.
    intros Hf. unfold begin_code, client_id_of. cbn [wps]. intros s n. destruct (begin u r s) as [ack s']. cbn [fst snd wps]. intros s1 n1 m1 s2 n2. cbn [fst snd].
    destruct (se_will s2) as [x|]; cbn [wps]; intros; (eapply wps_mono; [|apply (shape_restore f Hf)]); intros l Hl; repeat apply shape_cons; exact Hl.
  Qed.
End Code.

(** ** Until the session is created *)
Section Seek.
  Context (c : nat) (id : bytes) (kk : connect_packet) (u : bytes) (x : session_state) (wl : option will) (infl : list inflight).
  Fixpoint seek (k : code) : Prop :=
    match k with
    | Acquire _ k => seek k
    | Find id' f => id' = id /\ seek (f None)
    | Store (LoadSession id') f => id' = id /\ seek (f (RSession (Some x)))
    | Store (GetWill id') f => id' = id /\ seek (f (RWill wl))
    | Store (GetAllInflight id') f => id' = id /\ seek (f (RInflights infl))
    | New id' s f => id' = id /\ s = session_new kk /\ forall i, f i = begin_code c i u true true (ss_subscriptions x) wl infl
    | _ => False
    end.
  Lemma seek_connect cfg : authenticated cfg kk = true -> presented kk = id -> cf_clean_start (c_flags kk) = false -> seek (connect_code cfg c kk u true).
  Proof.
    intros Ha Hp Hc. unfold presented in Hp. unfold connect_code. rewrite Ha, Hc. cbn [negb seek]. rewrite Hp. unfold enter_code. cbn [seek]. rewrite Hp. repeat split; auto.
  Qed.
End Seek.

Section Runs.
  Context {st0 : mem_store} (cfg : config) (TR : list item) (xf : conf) (c : nat) (id : bytes) {Hsane : Sane cfg st0}.
  Context (HTR : mruns cfg (conf_on st0) TR xf) (Htx : forall c, Forall texts (events_of c TR)) (Hown : owns c id TR).
  Definition untouched (x : conf) : Prop :=
    aget bytes_eqb id (w_manager (cn_world x)) = None /\ entries id (w_store (cn_world x)) = entries id st0 /\ aget Nat.eqb c (w_conns (cn_world x)) = None.
  Lemma untouched_other pre rest x d k o k1 ts ls rs : TR = pre ++ IStep d o :: rest -> mruns cfg (conf_on st0) pre x -> d <> c ->
    aget Nat.eqb d (cn_tasks x) = Some k -> next k (cn_world x) = Some (o, k1) -> untouched x -> untouched (Mk_conf (apply d o (cn_world x)) ts ls rs).
  Proof.
    intros E Hp Hd Hk Hn (H1 & H2 & H3). assert (Hin : In (IStep d o) TR) by (rewrite E; apply in_or_app; right; left; reflexivity). split; [|split]; cbn [cn_world].
    - destruct o; try exact H1; cbn [apply w_manager set_manager].
      + destruct (bytes_dec id0 id) as [->|Ei]; [apply (aget_del_same _ beqb_spec)|rewrite (aget_del_other _ beqb_spec) by auto; exact H1].
      + destruct (bytes_dec id0 id) as [->|Ei]; [|rewrite (aget_put_other _ beqb_spec) by auto; exact H1]. exfalso.
        pose proof (own_runs _ _ _ _ Hp [] own_new) as Ho. cbn [app] in Ho. pose proof (oi_tasks _ _ Ho _ _ Hk) as HW.
        destruct k; cbn [Conc.next] in Hn; try discriminate.
        * destruct (nth_error (w_heap (cn_world x)) i0) as [s0|]; [destruct (f s0 (bk_tree (w_broker (cn_world x))))|]; discriminate.
        * injection Hn as -> _ _ _. cbn [within] in HW. destruct HW as [(k0 & u & a & HW1 & HW2) _]. apply Hd, Hown. exists k0, u, a. split; [|left; exact HW2].
          rewrite E. apply in_or_app. left. exact HW1.
    - destruct o; try exact H2. change (w_store (apply d (OStore o r) (cn_world x))) with (snd (mem_step (w_store (cn_world x)) o)). rewrite entries_other; [exact H2|].
      eapply (nobody_else _ _ _ _ _ HTR Htx Hown); eauto.
    - rewrite conns_apply by auto. exact H3.
  Qed.
  Lemma untouched_runs x tr x' : mruns cfg x tr x' -> forall pre rest, TR = pre ++ tr ++ rest -> mruns cfg (conf_on st0) pre x ->
    events_of c tr = [] -> idle c x -> untouched x -> idle c x' /\ untouched x'.
  Proof.
    induction 1 as [x|x m x1 j tr x2 Hs Hr IH]; intros pre rest E Hp Hn Hi Hu; [auto|].
    assert (Hpre1 : mruns cfg (conf_on st0) (pre ++ [j]) x1) by (apply mruns_app; exists x; split; [exact Hp|]; econstructor; [exact Hs|constructor]).
    assert (E1 : TR = (pre ++ [j]) ++ tr ++ rest) by (rewrite E, <- app_assoc; reflexivity).
    assert (Hn1 : events_of c tr = []) by (change (j :: tr) with ([j] ++ tr) in Hn; unfold events_of in *; rewrite flat_map_app in Hn; apply app_eq_nil in Hn; apply Hn).
    apply mstep_inv in Hs. unfold idle in *.
    destruct Hs as [(e & -> & -> & Hne & Hni & ->)|[(d & -> & -> & Hd & ->)|(d & k0 & o & k1 & -> & -> & Hd & Hnx & Hmy & ->)]].
    - eapply (IH (pre ++ [IStart e]) rest); auto. cbn [cn_tasks]. rewrite tasks_other; [exact Hi|]. intros Ee.
      assert (Hee : event_of c e = true) by (destruct e; cbn [event_conn event_of] in *; try congruence; subst; apply Nat.eqb_refl). cbn [events_of flat_map] in Hn. rewrite Hee in Hn. discriminate.
    - assert (Ed : d <> c) by congruence. eapply (IH (pre ++ [IEnd d]) rest); auto. cbn [cn_tasks]. rewrite tasks_del; auto.
    - assert (Ed : d <> c) by congruence. eapply (IH (pre ++ [IStep d o]) rest); auto; cbn [cn_tasks].
      + rewrite tasks_other; auto.
      + eapply untouched_other; eauto.
  Qed.
  Context (kk : connect_packet) (u : bytes) (y0 : session_state) (Hy0 : mem_load_session id st0 = Some y0).
  Notation wl := (mem_get_will id st0).
  Notation infl := (mem_get_all_inflight id st0).
  Lemma seek_runs x tr x' : mruns cfg x tr x' -> forall pre rest k, TR = pre ++ tr ++ rest -> mruns cfg (conf_on st0) pre x -> ~ In (IEnd c) tr ->
    aget Nat.eqb c (cn_tasks x) = Some k -> seek c id kk u y0 wl infl k -> untouched x ->
    (exists k', aget Nat.eqb c (cn_tasks x') = Some k' /\ seek c id kk u y0 wl infl k' /\ untouched x') \/
    exists i t1 t2 y, tr = t1 ++ IStep c (ONew id i (session_new kk)) :: t2 /\ mruns cfg (conf_on st0) (pre ++ t1 ++ [IStep c (ONew id i (session_new kk))]) y /\ mruns cfg y t2 x'
      /\ aget Nat.eqb c (cn_tasks y) = Some (begin_code c i u true true (ss_subscriptions y0) wl infl)
      /\ nth_error (w_heap (cn_world y)) i = Some (session_new kk) /\ aget Nat.eqb c (w_conns (cn_world y)) = None /\ entries id (w_store (cn_world y)) = entries id st0.
  Proof.
    induction 1 as [x|x m x1 j tr x2 Hs Hr IH]; intros pre rest k E Hp Hn Hk Hse Hu; [left; eauto|].
    assert (Hpre1 : mruns cfg (conf_on st0) (pre ++ [j]) x1) by (apply mruns_app; exists x; split; [exact Hp|]; econstructor; [exact Hs|constructor]).
    assert (E1 : TR = (pre ++ [j]) ++ tr ++ rest) by (rewrite E, <- app_assoc; reflexivity).
    assert (Hn1 : ~ In (IEnd c) tr) by (intros H; apply Hn; right; exact H).
    assert (Hgo : forall k', aget Nat.eqb c (cn_tasks x1) = Some k' -> seek c id kk u y0 wl infl k' -> untouched x1 ->
      (exists k', aget Nat.eqb c (cn_tasks x2) = Some k' /\ seek c id kk u y0 wl infl k' /\ untouched x2) \/
      exists i t1 t2 y, j :: tr = t1 ++ IStep c (ONew id i (session_new kk)) :: t2 /\ mruns cfg (conf_on st0) (pre ++ t1 ++ [IStep c (ONew id i (session_new kk))]) y /\ mruns cfg y t2 x2
        /\ aget Nat.eqb c (cn_tasks y) = Some (begin_code c i u true true (ss_subscriptions y0) wl infl)
        /\ nth_error (w_heap (cn_world y)) i = Some (session_new kk) /\ aget Nat.eqb c (w_conns (cn_world y)) = None /\ entries id (w_store (cn_world y)) = entries id st0).
    { intros k' K1 K2 K3. destruct (IH _ _ _ E1 Hpre1 Hn1 K1 K2 K3) as [HL|(i & t1 & t2 & y & F1 & F2 & F3)]; [left; exact HL|right].
      exists i, (j :: t1), t2, y. split; [rewrite F1; reflexivity|]. split; [|exact F3]. rewrite <- app_assoc in F2. exact F2. }
    pose proof Hs as Hs0. apply mstep_inv in Hs.
    destruct Hs as [(e & -> & -> & Hne & Hni & ->)|[(d & -> & -> & Hd & ->)|(d & k0 & o & k1 & -> & -> & Hd & Hnx & Hmy & ->)]].
    - destruct (Nat.eq_dec (event_conn e) c) as [Ed|Ed]; [rewrite Ed in Hni; congruence|]. eapply Hgo; eauto. cbn [cn_tasks]. rewrite tasks_other; auto.
    - destruct (Nat.eq_dec d c) as [->|Ed]; [destruct Hn; left; reflexivity|]. eapply Hgo; eauto. cbn [cn_tasks]. rewrite tasks_del; auto.
    - destruct (Nat.eq_dec d c) as [->|Ed].
      + assert (k0 = k) by congruence. subst k0. destruct Hu as (U1 & U2 & U3). pose proof U2 as U4. unfold entries in U4. injection U4 as S1 S2 S3.
        destruct k as [| | | | | | |p f|id' f| |id' s f| | |l k|]; cbn [seek Conc.next] in Hse, Hnx; try contradiction.
        * assert (Hsame : forall r q, Some (OStore p r, q) = Some (o, k1) -> snd (mem_step (w_store (cn_world x)) p) = w_store (cn_world x) ->
            untouched (Mk_conf (apply c o (cn_world x)) (aput Nat.eqb c k1 (cn_tasks x)) (relock c o (cn_locks x)) (reread c o (cn_readers x)))).
          { intros r q [= <- <-] Hm. split; [exact U1|]. split; [|exact U3]. cbn [cn_world].
            change (w_store (apply c (OStore p r) (cn_world x))) with (snd (mem_step (w_store (cn_world x)) p)). rewrite Hm. exact U2. }
          destruct p; try contradiction; destruct Hse as [-> Hse]; (eapply Hgo; [cbn [cn_tasks]; apply (aget_put_same _ nateqb_spec)| |eapply Hsame; [exact Hnx|reflexivity]]);
            injection Hnx as <- <-; cbn [mem_step fst].
          -- unfold mem_load_session in *. rewrite S1, Hy0. exact Hse.
          -- unfold mem_get_will in *. rewrite S2. exact Hse.
          -- unfold mem_get_all_inflight in *. rewrite S3. exact Hse.
        * destruct Hse as [-> Hse]. injection Hnx as <- <-. rewrite U1 in *. eapply Hgo; [cbn [cn_tasks]; apply (aget_put_same _ nateqb_spec)|exact Hse|]. split; [exact U1|]. split; [exact U2|exact U3].
        * destruct Hse as (-> & -> & Hf). injection Hnx as <- <-. right. exists (length (w_heap (cn_world x))), [], tr. eexists. split; [reflexivity|]. split; [exact Hpre1|]. split; [exact Hr|].
          cbn [cn_tasks cn_world]. split; [rewrite (aget_put_same _ nateqb_spec), Hf; reflexivity|]. split; [|split; [exact U3|exact U2]].
          cbn [apply w_heap set_manager set_heap]. rewrite nth_error_app2 by lia. rewrite Nat.sub_diag. reflexivity.
        * injection Hnx as <- <-. eapply Hgo; [cbn [cn_tasks]; apply (aget_put_same _ nateqb_spec)|exact Hse|]. split; [exact U1|]. split; [exact U2|exact U3].
      + eapply Hgo; eauto; [cbn [cn_tasks]; rewrite tasks_other; auto|]. eapply untouched_other; eauto.
  Qed.
  Context (pid : N) (F : bytes -> Prop) (P : Prop) (z0 : inflight) (HF : forall f, F f -> In f (ss_subscriptions y0)) (HP : P -> mem_get_inflight id pid st0 = Some z0).
  Lemma safe_entries m : entries id m = entries id st0 -> safe F P z0 (view id pid m).
  Proof.
    intros H. unfold entries in H. injection H as H1 _ H3. unfold safe, view, mem_load_session, mem_get_inflight, inflight_of in *. cbn [fst snd]. rewrite H1, H3. split; [eauto|exact HP].
  Qed.
  (** While its handler runs: it is looking for the session, or has taken it up. *)
  Lemma coming pre mid rest e z : TR = pre ++ IStart e :: mid ++ rest -> e = EFirst c (Some (Connect kk)) u true -> events_of c pre = [] ->
    accepts cfg kk -> presented kk = id -> cf_clean_start (c_flags kk) = false -> ~ In (IEnd c) mid -> mruns cfg (conf_on st0) (pre ++ IStart e :: mid) z -> mruns cfg z rest xf ->
    (untouched z /\ aget Nat.eqb c (cn_tasks z) <> Some Finish) \/
    exists i k s t1 t2 y, mine c TR i /\ mid = t1 ++ t2 /\ mruns cfg y t2 z /\ aget Nat.eqb c (cn_tasks y) = Some (begin_code c i u true true (ss_subscriptions y0) wl infl)
      /\ mostly c i z /\ aget Nat.eqb c (cn_tasks z) = Some k /\ nth_error (w_heap (cn_world z)) i = Some s
      /\ local i id pid (fun _ => True) (at_finish (ss_subscriptions y0) wl F P z0) k s (view id pid (w_store (cn_world z))).
  Proof.
    intros E Ee Hev Hacc Hpk Hcl Hend Hz Hrest. apply authenticated_iff in Hacc.
    assert (Hx : exists x1, mruns cfg (conf_on st0) (pre ++ [IStart e]) x1 /\ mruns cfg x1 mid z /\ aget Nat.eqb c (cn_tasks x1) = Some (connect_code cfg c kk u true) /\ untouched x1).
    { destruct (start_at _ _ _ _ _ _ Hz) as (x0 & Hx0 & Hi0 & Hne & H2). rewrite Ee in *. cbn [event_conn] in *.
      destruct (untouched_runs _ _ _ Hx0 [] (IStart (EFirst c (Some (Connect kk)) u true) :: mid ++ rest)) as [_ Hu]; [exact E|constructor|exact Hev|reflexivity|split; [reflexivity|split; reflexivity]|].
      assert (Hc0 : aget Nat.eqb c (w_conns (cn_world x0)) = None) by apply Hu. rewrite Hc0 in H2. cbn [handler] in H2. eexists. split; [|split; [exact H2|split; [apply (aget_put_same _ nateqb_spec)|exact Hu]]].
      apply mruns_app. exists x0. split; [exact Hx0|]. eapply (mr_cons _ _ (MStart (EFirst c (Some (Connect kk)) u true))); [|constructor]. cbn [mstep event_conn]. unfold idle in Hi0. rewrite Hi0, Hc0. reflexivity. }
    destruct Hx as (x1 & Hx1 & Hxz & Hk1 & Hu).
    assert (E1 : TR = (pre ++ [IStart e]) ++ mid ++ rest) by (rewrite E, <- app_assoc; reflexivity).
    destruct (seek_runs _ _ _ Hxz _ _ _ E1 Hx1 Hend Hk1) as [(k' & Hk' & Hse & Hu')|(i & t1 & t2 & y & Et & Hy & Hyz & Hky & Hsy & Hcy & Heny)].
    { apply seek_connect; assumption. }
    { exact Hu. }
    { left. split; [exact Hu'|]. intros Hf. rewrite Hk' in Hf. injection Hf as ->. destruct Hse. }
    right. assert (Hmine : mine c TR i).
    { exists id. split.
      - exists c, (session_new kk). rewrite E1, Et. apply in_or_app. right. apply in_or_app. left. apply in_or_app. right. left. reflexivity.
      - exists kk, u, true. split; [|exact Hpk]. rewrite E, Ee. apply in_or_app. right. left. reflexivity. }
    assert (Hend2 : ~ In (IEnd c) t2) by (intros H; apply Hend; rewrite Et; apply in_or_app; right; right; exact H).
    assert (E2 : TR = ((pre ++ [IStart e]) ++ t1 ++ [IStep c (ONew id i (session_new kk))]) ++ t2 ++ rest).
    { rewrite E1, Et. rewrite <- !app_assoc. reflexivity. }
    destruct (local_runs cfg TR xf c id pid HTR Htx Hown i (fun _ => True) (at_finish (ss_subscriptions y0) wl F P z0) _ _ _ Hyz _ _ _ _ E2 Hy Hmine Hend2 (fun _ _ _ => I) Hky Hsy) as (Hmo & k' & s' & Hk' & Hs' & HL).
    { apply finish_begin; [exact HF|]. apply safe_entries, Heny. }
    { right. exact Hcy. }
    exists i, k', s', (t1 ++ [IStep c (ONew id i (session_new kk))]), t2, y. rewrite <- app_assoc. auto 10.
  Qed.
  Lemma back pre mid post e : handled c e pre mid post TR -> e = EFirst c (Some (Connect kk)) u true -> events_of c pre = [] -> accepts cfg kk ->
    presented kk = id -> cf_clean_start (c_flags kk) = false ->
    exists z i s, mruns cfg (conf_on st0) (pre ++ IStart e :: mid ++ [IEnd c]) z /\ mruns cfg z post xf /\ mine c TR i /\ idle c z
      /\ serves (cn_world z) c i s /\ taken_up (ss_subscriptions y0) wl s /\ safe F P z0 (view id pid (w_store (cn_world z)))
      /\ (exists a, In (Sent c (ConnAck a)) (outputs_of c mid) /\ ca_reason_code a = Success /\ ca_session_present a = true)
      /\ forall x, In x infl -> In (Sent c (Publish (retry_publish x))) (outputs_of c mid).
  Proof.
    intros (E & _ & Hend) Ee Hev Hacc Hpk Hcl. pose proof HTR as Hr. rewrite E in Hr.
    change (pre ++ IStart e :: mid ++ IEnd c :: post) with (pre ++ ([IStart e] ++ mid) ++ [IEnd c] ++ post) in Hr. rewrite app_assoc in Hr. apply mruns_app in Hr. destruct Hr as (z & Hz & Hr).
    pose proof Hr as Hrest. apply mruns_app in Hr. destruct Hr as (z2 & Hz2 & Hxf). cbn [app] in Hz.
    assert (Hfin : aget Nat.eqb c (cn_tasks z) = Some Finish /\ cn_world z2 = cn_world z /\ aget Nat.eqb c (cn_tasks z2) = None).
    { inversion Hz2 as [|? m y' ? ? ? Hse Hyx]; subst. inversion Hyx; subst. apply mstep_inv in Hse.
      destruct Hse as [(e' & -> & E2 & _)|[(d & -> & E2 & Hd & ->)|(d & k0 & o' & k2 & -> & E2 & _)]]; try discriminate. injection E2 as <-. cbn [cn_tasks]. rewrite (aget_del_same _ nateqb_spec). auto. }
    destruct Hfin as (Hfin & Hw & Hid).
    destruct (coming pre mid (IEnd c :: post) e z E Ee Hev Hacc Hpk Hcl Hend Hz Hrest) as [[_ Hno]|(i & k & s & t1 & t2 & y & Hmine & Et & Hyz & Hky & Hmo & Hk & Hs & HL)]; [contradiction|].
    rewrite Hfin in Hk. injection Hk as <-. apply local_at in HL. destruct HL as [Hsafe Htk]. specialize (Htk eq_refl).
    assert (Hend2 : ~ In (IEnd c) t2) by (intros H; apply Hend; rewrite Et; apply in_or_app; right; exact H).
    assert (Hyz2 : mruns cfg y (t2 ++ [IEnd c]) z2) by (apply mruns_app; exists z; split; [exact Hyz|exact Hz2]).
    destruct (run_task _ _ _ _ Hyz2 c _ _ (fun _ => True) Hky (told_begin c i (ss_subscriptions y0) wl infl u) (always_true _)) as [_ HQ].
    destruct (HQ t2 [] eq_refl Hend2) as ((a & Ha & Ha1 & Ha2) & Hinf & l' & Hl').
    assert (Hout : forall o, In (OOut o) (steps_of c t2) -> In o (outputs_of c mid)).
    { intros o Ho. apply steps_in in Ho. unfold outputs_of. apply in_flat_map. exists (IStep c (OOut o)). rewrite Nat.eqb_refl. split; [|left; reflexivity].
      rewrite Et. apply in_or_app. right. exact Ho. }
    exists z2, i, s. split; [|split; [exact Hxf|split; [exact Hmine|split; [exact Hid|]]]].
    { change (IStart e :: mid ++ [IEnd c]) with ((IStart e :: mid) ++ [IEnd c]). rewrite app_assoc. apply mruns_app. exists z. split; [exact Hz|exact Hz2]. }
    rewrite Hw. split; [|split; [exact Htk|split; [exact Hsafe|split; [exists a; auto|auto]]]].
    split; [|exact Hs]. destruct (steps_split _ _ _ _ _ Hl') as (m1 & m2 & Hm & _ & Hm2). pose proof Hyz as Hyz3. rewrite Hm in Hyz3.
    destruct (step_at _ _ _ _ _ _ _ Hyz3) as (t & kt & kt1 & _ & _ & _ & _ & Ht2). rewrite (conns_runs _ _ _ _ c Ht2); [|rewrite Hm2; constructor]. cbn [cn_world apply]. apply (aget_put_same _ nateqb_spec).
  Qed.
  (** From the end of the handler on, the subscriptions are served like ones that were just made. *)
  Lemma back_run pre mid post e f : handled c e pre mid post TR -> e = EFirst c (Some (Connect kk)) u true -> events_of c pre = [] -> accepts cfg kk ->
    presented kk = id -> cf_clean_start (c_flags kk) = false -> In f (ss_subscriptions y0) -> keeps_subscription c f post ->
    exists i ret n mid1 mid2 L0 y, mid = mid1 ++ IStep c (OSub f n) :: mid2 /\ In (IStep c (OStore (GetRetained f) (RMessages ret))) mid2 /\
      mruns cfg (conf_on st0) (pre ++ IStart e :: mid ++ [IEnd c]) y /\ mruns cfg y post xf /\ dinv c i f ret (routed f mid2) L0 post [] y /\ Forall (quiet_item c i f) post.
  Proof.
    intros (E & _ & Hend) Ee Hev Hacc Hpk Hcl Hf Hkeep. pose proof HTR as Hr. rewrite E in Hr.
    change (pre ++ IStart e :: mid ++ IEnd c :: post) with (pre ++ ([IStart e] ++ mid) ++ [IEnd c] ++ post) in Hr. rewrite app_assoc in Hr. apply mruns_app in Hr. destruct Hr as (z & Hz & Hr).
    cbn [app] in Hz, Hr.
    assert (Hfin : aget Nat.eqb c (cn_tasks z) = Some Finish).
    { inversion Hr as [|? m y' ? ? ? Hse Hyx]; subst. apply mstep_inv in Hse.
      destruct Hse as [(e' & -> & E2 & _)|[(d & -> & E2 & Hd & ->)|(d & k0 & o' & k2 & -> & E2 & _)]]; try discriminate. injection E2 as <-. exact Hd. }
    destruct (coming pre mid (IEnd c :: post) e z E Ee Hev Hacc Hpk Hcl Hend Hz Hr) as [[_ Hno]|(i & k & s & t1 & t2 & y & Hmine & Et & Hyz & Hky & Hmo & Hk & Hs & HL)]; [contradiction|].
    assert (Hend2 : ~ In (IEnd c) t2) by (intros H; apply Hend; rewrite Et; apply in_or_app; right; exact H).
    assert (Hyz2 : mruns cfg y (t2 ++ IEnd c :: post) xf) by (apply mruns_app; exists z; split; [exact Hyz|exact Hr]).
    destruct (run_task _ _ _ _ Hyz2 c _ _ (fun _ => True) Hky (told_begin c i (ss_subscriptions y0) wl infl u) (always_true _)) as [_ HQ].
    destruct (HQ t2 post eq_refl Hend2) as (_ & _ & l' & Hl').
    assert (Hcz : aget Nat.eqb c (w_conns (cn_world z)) = Some i).
    { destruct (steps_split _ _ _ _ _ Hl') as (m1 & m2 & Hm & _ & Hm2). pose proof Hyz as Hyz3. rewrite Hm in Hyz3.
      destruct (step_at _ _ _ _ _ _ _ Hyz3) as (t & kt & kt1 & _ & _ & _ & _ & Ht2). rewrite (conns_runs _ _ _ _ c Ht2); [|rewrite Hm2; constructor]. cbn [cn_world apply]. apply (aget_put_same _ nateqb_spec). }
    assert (Hlone : lone c TR).
    { intros d id' (k1 & u1 & a1 & H1 & H2) (k2 & u2 & a2 & H3 & H4). destruct Hown as [Hw1 Hw2].
      assert (id' = id) as -> by (apply Hw1; exists k1, u1, a1; auto). apply Hw2. exists k2, u2, a2. auto. }
    assert (Honly : forall d s s', In (IStep d (OSess i s s')) (t2 ++ post) -> d = c).
    { intros d s1 s2 H. apply (@owner_only st0 cfg TR xf c i HTR Hlone Hmine). exists s1, s2. rewrite E, Et.
      apply in_or_app. right. right. rewrite <- app_assoc. apply in_or_app. right. apply in_app_or in H. apply in_or_app. destruct H as [H|H]; [left; exact H|right; right; exact H]. }
    destruct (shaped_run _ _ _ _ _ _ _ _ _ _ Hyz Hr Hky (shape_begin c i _ _ _ f u true Hf) Hend2 Honly Hcz Hkeep) as (ret & n & mid1 & mid2 & L0 & y' & G1 & G2 & G3 & G4 & G5 & G6).
    exists i, ret, n, (t1 ++ mid1), mid2, L0, y'. split; [rewrite Et, G1, <- app_assoc; reflexivity|]. split; [exact G2|]. split; [|auto].
    change (IStart e :: mid ++ [IEnd c]) with ((IStart e :: mid) ++ [IEnd c]). rewrite app_assoc. apply mruns_app. exists z. split; [exact Hz|exact G3].
  Qed.
  Lemma back_sub pre mid post e f : handled c e pre mid post TR -> e = EFirst c (Some (Connect kk)) u true -> events_of c pre = [] -> accepts cfg kk ->
    presented kk = id -> cf_clean_start (c_flags kk) = false -> In f (ss_subscriptions y0) -> exists n, In (IStep c (OSub f n)) mid.
  Proof.
    intros (E & _ & Hend) Ee Hev Hacc Hpk Hcl Hf. pose proof HTR as Hr. rewrite E in Hr.
    change (pre ++ IStart e :: mid ++ IEnd c :: post) with (pre ++ ([IStart e] ++ mid) ++ [IEnd c] ++ post) in Hr. rewrite app_assoc in Hr. apply mruns_app in Hr. destruct Hr as (z & Hz & Hr).
    cbn [app] in Hz, Hr.
    assert (Hfin : aget Nat.eqb c (cn_tasks z) = Some Finish).
    { inversion Hr as [|? m y' ? ? ? Hse Hyx]; subst. apply mstep_inv in Hse.
      destruct Hse as [(e' & -> & E2 & _)|[(d & -> & E2 & Hd & ->)|(d & k0 & o' & k2 & -> & E2 & _)]]; try discriminate. injection E2 as <-. exact Hd. }
    destruct (coming pre mid (IEnd c :: post) e z E Ee Hev Hacc Hpk Hcl Hend Hz Hr) as [[_ Hno]|(i & k & s & t1 & t2 & y & Hmine & Et & Hyz & Hky & Hmo & Hk & Hs & HL)]; [contradiction|].
    assert (Hend2 : ~ In (IEnd c) t2) by (intros H; apply Hend; rewrite Et; apply in_or_app; right; exact H).
    assert (Hyz2 : mruns cfg y (t2 ++ IEnd c :: post) xf) by (apply mruns_app; exists z; split; [exact Hyz|exact Hr]).
    destruct (run_task _ _ _ _ Hyz2 c _ _ (fun _ => True) Hky (shape_begin c i _ _ _ f u true Hf) (always_true _)) as [_ HQ].
    destruct (HQ t2 post eq_refl Hend2) as (l0 & n & ms & s1 & s2 & l1 & Hl & _). exists n. rewrite Et. apply in_or_app. right. apply steps_in. rewrite Hl. apply in_or_app. right. left. reflexivity.
  Qed.
End Runs.

(** ** A whole life *)
Lemma events_first c tr : events_of c tr = [] \/ exists pre e rest, tr = pre ++ IStart e :: rest /\ events_of c pre = [] /\ event_of c e = true.
Proof.
  induction tr as [|j tr IH]; [left; reflexivity|]. assert (Hj : events_of c (j :: tr) = events_of c [j] ++ events_of c tr) by (unfold events_of; rewrite <- flat_map_app; reflexivity).
  destruct (events_of c [j]) as [|e l] eqn:E.
  - rewrite Hj. destruct IH as [->|(pre & e & rest & -> & H1 & H2)]; [left; reflexivity|right]. exists (j :: pre), e, rest. split; [reflexivity|]. split; [|exact H2].
    change (events_of c ([j] ++ pre) = []). unfold events_of in *. rewrite flat_map_app, H1, E. reflexivity.
  - right. destruct j as [e'| |]; try discriminate. unfold events_of in E. cbn [flat_map] in E. destruct (event_of c e') eqn:Ee; [|discriminate]. exists [], e', tr. auto.
Qed.
Lemma end_dec c (l : list item) : (exists a b, l = a ++ IEnd c :: b /\ ~ In (IEnd c) a) \/ ~ In (IEnd c) l.
Proof.
  induction l as [|j l IH]; [right; intros []|].
  assert (Hj : j = IEnd c \/ j <> IEnd c) by (destruct j as [| |d]; try (right; discriminate); destruct (Nat.eq_dec d c) as [->|]; [left; reflexivity|right; congruence]).
  destruct Hj as [->|Hj]; [left; exists [], l; split; [reflexivity|intros []]|].
  destruct IH as [(a & b & -> & H)|H]; [left; exists (j :: a), b; split; [reflexivity|]|right]; intros [E|E]; auto.
Qed.
Lemma life_safe {st0} cfg TR xf c id pid (F : bytes -> Prop) (P : Prop) z {Hsane : Sane cfg st0} : mruns cfg (conf_on st0) TR xf -> (forall c, Forall texts (events_of c TR)) ->
  only_returns cfg id c TR -> (forall f, F f -> no_unsubscribe f c TR) -> (P -> no_ack id pid c TR) -> safe F P z (view id pid st0) -> safe F P z (view id pid (w_store (cn_world xf))).
Proof.
  intros Hr Ht [Hown Hev] HFq HPq ((y0 & Hy0 & HF) & HP). cbn [view fst snd] in Hy0, HP.
  assert (Hsafe : forall x, untouched (st0 := st0) c id x -> safe F P z (view id pid (w_store (cn_world x)))) by (intros x Hu; eapply safe_entries; [exact Hy0|exact HF|exact HP|apply Hu]).
  destruct (events_first c TR) as [Hno|(pre & e & rest & E & Hpre & Hec)].
  - apply Hsafe. eapply (untouched_runs cfg TR xf c id Hr Ht Hown _ _ _ Hr [] []); [rewrite app_nil_r; reflexivity|constructor|exact Hno|reflexivity|split; [reflexivity|split; reflexivity]].
  - assert (Hevs : events_of c TR = e :: events_of c rest).
    { rewrite E. unfold events_of in *. rewrite flat_map_app, Hpre. cbn [flat_map app]. rewrite Hec. reflexivity. }
    destruct Hev as [Hev|(k & u & es & Hev & Hacc & Hpk & Hcl & Hone)]; [congruence|]. rewrite Hevs in Hev. injection Hev as He Hes.
    assert (Hgen : forall j, In j rest -> gentle c id pid F P j).
    { intros j Hj. split.
      - intros e' -> Hc'. assert (Hin : event_of c e' = true -> In e' es) by (intros Hee; rewrite <- Hes; unfold events_of; apply in_flat_map; exists (IStart e'); rewrite Hee; split; [exact Hj|left; reflexivity]).
        assert (Hall : event_of c e' = true -> In e' (events_of c TR)) by (intros Hee; rewrite Hevs, Hes; right; auto).
        destruct e' as [d fi v b|d q|d g|d|d|]; cbn [event_conn event_of spares] in *; subst; auto; rewrite Nat.eqb_refl in *.
        + apply (Hone _ _ _ (Hin eq_refl)).
        + specialize (Hall eq_refl). destruct q; auto.
          * intros HPP. apply (HPq HPP). left. exact Hall.
          * intros HPP. apply (HPq HPP). right. exact Hall.
          * intros f Hf. apply (HFq f Hf). exact Hall.
      - intros p r -> HPP y ->. destruct (HPq HPP) as [_ Hn]. apply Hn. exists y, r. rewrite E. apply in_or_app. right. right. exact Hj. }
    destruct (end_dec c rest) as [(mid & post & -> & Hend)|Hend].
    + destruct (back cfg TR xf c id Hr Ht Hown k u y0 Hy0 pid F P z HF HP pre mid post e) as (x & i & s & Hx & Hxf & Hmine & Hid & [Hci Hsi] & [Htk _] & Hsf & _); auto; [repeat split; auto|].
      assert (E2 : TR = (pre ++ IStart e :: mid ++ [IEnd c]) ++ post ++ []) by (rewrite E, app_nil_r, <- app_assoc; cbn [app]; rewrite <- app_assoc; reflexivity).
      destruct (held_kept c id pid i F P z xf) as (s2 & _ & Hk2); [|destruct Hk2 as (_ & K1 & K2); split; assumption].
      eapply (held_runs cfg TR xf c id pid Hr Ht Hown i F P z Hmine _ _ _ Hxf _ [] E2 Hx).
      * intros j Hj. apply Hgen. apply in_or_app. right. right. exact Hj.
      * split; [left; exact Hci|]. exists s. split; [exact Hsi|]. unfold idle in Hid. rewrite Hid. destruct Hsf as [S1 S2]. split; [|split; assumption]. intros f Hf. apply Htk, HF, Hf.
    + destruct (coming cfg TR xf c id Hr Ht Hown k u y0 Hy0 pid F P z HF HP pre rest [] e xf) as [[Hu _]|(i & k' & s & t1 & t2 & y & _ & _ & _ & _ & _ & _ & _ & HL)]; auto.
      * rewrite app_nil_r. exact E.
      * rewrite E in Hr. exact Hr.
      * constructor.
      * apply local_at in HL. apply HL.
Qed.
