(** Property C107: whenever the broker stops, at whatever point of whatever schedule of concurrent handlers, the store
    holds what clients were told: the subscriptions granted in a SUBACK, the QoS 1 and 2 messages sent and not yet
    acknowledged, the retained messages acknowledged to their publisher. *)
From Coq Require Import String.
From Verif Require Import Base Utf8 Codec SpecCodec Tac CodecFacts Str Maps Topic SpecTopic TopicFacts Property PacketProps Packets
  TopicTree TreeFacts Storage SpecStorage StorageFacts Broker SpecBroker BrokerFacts Auth Session Server SpecServer SessionFacts ServerFacts
  HandlerFacts HistoryFacts ProvenanceFacts WorldFacts DeliveryFacts StoreFacts ConnectFacts ResumeFacts Crash CrashFacts Examples
  Conc SpecConc ConcFacts ConcRoute ConcOwn ConcProv SpecLives ConcLives SpecDurable ConcStore ConcHold ConcLocks Properties_Crash Properties_Conc Properties_Provenance.
From Coq Require Import Lia.
Local Open Scope list_scope.

(** ** Lemmas *)
Lemma next_out k w o k1 : next k w = Some (OOut o, k1) -> k = Emit o k1.
Proof. destruct k; cbn [Conc.next]; intros H; try discriminate; [congruence|]. destruct (nth_error (w_heap w) i); [destruct (f _ _)|]; discriminate. Qed.
(** The handler of an event on an open connection [c] until one of its steps. *)
Lemma serving_start {st0} cfg TR x c id pid pre e rest {Hsane : Sane cfg st0} : mruns cfg (conf_on st0) TR x -> (forall c, Forall texts (events_of c TR)) -> owns c id TR ->
  TR = pre ++ IStart e :: rest -> event_conn e = c -> opened c pre ->
  exists y0 i s, let y1 := Mk_conf (cn_world y0) (aput Nat.eqb c (handler cfg (Some i) e) (cn_tasks y0)) (cn_locks y0) (cn_readers y0) in
    mruns cfg (conf_on st0) (pre ++ [IStart e]) y1 /\ mruns cfg y1 rest x /\ mine c TR i /\ aget Nat.eqb c (w_conns (cn_world y0)) = Some i
    /\ nth_error (w_heap (cn_world y0)) i = Some s /\ some_entry (view id pid (w_store (cn_world y0))).
Proof.
  intros Hr Ht Ho E Hc Hop. pose proof Hr as Hr0. rewrite E in Hr. destruct (start_at _ _ _ _ _ _ Hr) as (y0 & Hy0 & Hi & Hne & Hx). rewrite Hc in *.
  assert (Htp : Forall texts (events_of c pre)) by (specialize (Ht c); rewrite E in Ht; eapply texts_app_l, Ht).
  destruct (proj1 (open_conns cfg c pre y0 Hy0 Htp Hi) Hop) as (i & Hci).
  pose proof (registered_at cfg TR x c id pid Hr0 Ht Ho pre _ y0 E Hy0) as Hreg. unfold registered in Hreg. rewrite Hi in Hreg.
  destruct (Hreg i Hci) as (Hm & (s & Hs) & Hv). exists y0, i, s. cbv zeta. rewrite Hci in Hx. repeat split; auto.
  apply mruns_app. exists y0. split; [exact Hy0|]. eapply (mr_cons _ _ (MStart e)); [|constructor].
  cbn [mstep]. destruct e; try congruence; cbn [event_conn] in *; subst; rewrite Hi, Hci; reflexivity.
Qed.

(** ** Subscriptions *)
Lemma suback_stored {st} cfg tr x c id p a f pre mid post {Hsane : Sane cfg st} :
  mruns cfg (conf_on st) tr x -> (forall d, Forall texts (events_of d tr)) -> owns c id tr ->
  tr = pre ++ IStart (EPacket c (Subscribe p)) :: mid ++ IStep c (OOut (Sent c (SubAck a))) :: post -> opened c pre -> ~ In (IEnd c) mid ->
  grants p a f -> stays_subscribed c f post ->
  exists y, mem_load_session id (w_store (cn_world x)) = Some y /\ In f (ss_subscriptions y).
Proof.
  intros Hr Ht Ho E Hop Hend Hg Hst.
  destruct (serving_start cfg tr x c id 0 _ _ _ Hr Ht Ho E eq_refl Hop) as (y0 & i & s & Hy1 & Hx & Hm & Hci & Hs & Hv). cbv zeta in Hy1, Hx.
  destruct (step_at _ _ _ _ _ _ _ Hx) as (y & k & k1 & Hyr & Hk & Hn & _ & Hx2).
  assert (E1 : tr = (pre ++ [IStart (EPacket c (Subscribe p))]) ++ mid ++ IStep c (OOut (Sent c (SubAck a))) :: post) by (rewrite E, <- app_assoc; reflexivity).
  destruct (local_runs cfg tr x c id 0 Hr Ht Ho i (fun _ => True) (at_suback p) _ _ _ Hyr _ _ (subscribe_code c i p) s E1 Hy1 Hm Hend) as (Hmy & k' & s' & Hk' & Hs' & HL); auto.
  { cbn [cn_tasks]. apply (aget_put_same _ nateqb_spec). }
  { apply suback_code. }
  { left. exact Hci. }
  rewrite Hk in Hk'. injection Hk' as <-.
  apply next_out in Hn. subst k.
  apply local_at in HL. cbn [at_suback] in HL. destruct HL as [-> HL].
  destruct Hg as (n & opt & r & G1 & G2 & G3). destruct (HL n f opt G1) as (Hsub & z & Hz & Hin); [rewrite G2; destruct G3 as [->|[->| ->]]; discriminate|congruence|].
  assert (E2 : tr = (pre ++ IStart (EPacket c (Subscribe p)) :: mid ++ [IStep c (OOut (Sent c (SubAck a)))]) ++ post ++ []).
  { rewrite E, app_nil_r, <- app_assoc. cbn. rewrite <- app_assoc. reflexivity. }
  assert (Hpre2 : mruns cfg (conf_on st) (pre ++ IStart (EPacket c (Subscribe p)) :: mid ++ [IStep c (OOut (Sent c (SubAck a)))])
    (Mk_conf (apply c (OOut (Sent c (SubAck a))) (cn_world y)) (aput Nat.eqb c Finish (cn_tasks y)) (relock c (OOut (Sent c (SubAck a))) (cn_locks y)) (reread c (OOut (Sent c (SubAck a))) (cn_readers y)))).
  { change (IStart (EPacket c (Subscribe p)) :: mid ++ [IStep c (OOut (Sent c (SubAck a)))]) with ([IStart (EPacket c (Subscribe p))] ++ mid ++ [IStep c (OOut (Sent c (SubAck a)))]).
    rewrite app_assoc. apply mruns_app. eexists. split; [exact Hy1|]. apply mruns_app. exists y. split; [exact Hyr|].
    eapply (mr_cons _ _ (MGo c)); [|constructor]. cbn [mstep]. rewrite Hk. reflexivity. }
  destruct (held_kept c id 0 i (eq f) False noflight x) as (s2 & _ & _ & (st2 & Hst2 & Hf2) & _).
  { eapply (held_runs cfg tr x c id 0 Hr Ht Ho i (eq f) False noflight Hm _ _ _ Hx2 _ [] E2 Hpre2).
    - intros j Hj. split.
      + intros e -> Hec. destruct (Hst e Hj) as [S1 S2]. destruct e as [c0 fi u b|c0 q|c0 g|c0|c0|]; cbn [event_conn] in Hec; subst; cbn [spares]; auto.
        * eapply S2. reflexivity.
        * destruct q; auto; try contradiction. intros g <-. eapply S1. reflexivity.
      + intros q r' _. red. contradiction.
    - split; [exact Hmy|]. exists s'. cbn [cn_tasks cn_world apply]. split; [exact Hs'|]. rewrite (aget_put_same _ nateqb_spec). cbn [local]. split; [|exact I].
      split; [intros g <-; exact Hsub|]. split; [|contradiction]. exists z. split; [exact Hz|]. intros g <-. exact Hin. }
  exists st2. split; [exact Hst2|apply Hf2; reflexivity].
Qed.
(** A client that comes back after a crash at any moment after its SUBACK is subscribed to every filter that was granted,
    unless it has unsubscribed or another connection with its identifier has come (C48 says what can go wrong then). *)
Theorem C107_subscriptions cfg trs st tr x c id p a f pre mid post :
  lives cfg trs st -> mruns cfg (conf_on st) tr x -> (forall d, Forall texts (events_of d tr)) -> owns c id tr ->
  tr = pre ++ IStart (EPacket c (Subscribe p)) :: mid ++ IStep c (OOut (Sent c (SubAck a))) :: post -> opened c pre -> ~ In (IEnd c) mid ->
  grants p a f -> stays_subscribed c f post ->
  forall d w' o', comes_back cfg (recover (w_store (cn_world x))) id d w' o' -> exists j s', serves w' d j s' /\ subscribed s' f.
Proof.
  intros Hlv Hr Ht Ho E Hop Hend Hg Hst d w' o' Hb. pose proof (lives_sane _ _ _ Hlv) as Hsane.
  destruct (suback_stored _ _ _ _ _ _ _ _ _ _ _ Hr Ht Ho E Hop Hend Hg Hst) as (y & Hy & Hf).
  destruct (comes_back_subs _ _ _ _ _ _ Hb) as (j & s3 & Hj & Hj2). exists j, s3. split; [exact Hj|]. apply Hj2.
  unfold stored. rewrite Hy. exact Hf.
Qed.
Print Assumptions C107_subscriptions.

(** ** Messages in flight *)
Lemma reused_dec c id n tr : reused c id n tr \/ ~ reused c id n tr.
Proof.
  induction tr as [|j tr IH]; [right; intros (y & r & [])|]. destruct IH as [(y & r & H)|H]; [left; exists y, r; right; exact H|].
  assert (Hj : (exists y r, j = IStep c (OStore (StoreInflight id n y) r)) \/ ~ (exists y r, j = IStep c (OStore (StoreInflight id n y) r))).
  { destruct j as [|d o|]; try (right; intros (? & ? & ?); discriminate). destruct o as [| | | | | |o r| | | | | | |]; try (right; intros (? & ? & ?); discriminate).
    destruct o as [| | | | | | | | | |id' n' y| | |]; try (right; intros (? & ? & ?); discriminate).
    destruct (Nat.eq_dec d c) as [->|]; [|right; intros (? & ? & ?); congruence]. destruct (bytes_dec id' id) as [->|]; [|right; intros (? & ? & ?); congruence].
    destruct (N.eq_dec n' n) as [->|]; [left; eauto|right; intros (? & ? & ?); congruence]. }
  destruct Hj as [(y & r & ->)|Hj]; [left; exists y, r; left; reflexivity|right]. intros (y & r & [Hy|Hy]); [apply Hj; eauto|apply H; exists y, r; exact Hy].
Qed.
Lemma publish_stored {st} cfg tr x c id f q n pre mid post {Hsane : Sane cfg st} :
  mruns cfg (conf_on st) tr x -> (forall d, Forall texts (events_of d tr)) -> owns c id tr ->
  tr = pre ++ IStart (EOut c f) :: mid ++ IStep c (OOut (Sent c (Publish q))) :: post -> opened c pre -> ~ In (IEnd c) mid ->
  pb_packet_id q = Some n -> (pb_qos q = AtLeastOnce \/ pb_qos q = ExactlyOnce) -> unacknowledged c n post -> ~ reused c id n post ->
  exists y, mem_load_session id (w_store (cn_world x)) = Some y
    /\ mem_get_inflight id n (w_store (cn_world x)) = Some (Mk_inflight n (pb_topic q) (pb_payload q) (pb_qos q) (pb_dup q)).
Proof.
  intros Hr Ht Ho E Hop Hend Hid Hq Hua Hre.
  destruct (serving_start cfg tr x c id n _ _ _ Hr Ht Ho E eq_refl Hop) as (y0 & i & s & Hy1 & Hx & Hm & Hci & Hs & Hv). cbv zeta in Hy1, Hx.
  destruct (step_at _ _ _ _ _ _ _ Hx) as (y & k & k1 & Hyr & Hk & Hn & _ & Hx2).
  assert (E1 : tr = (pre ++ [IStart (EOut c f)]) ++ mid ++ IStep c (OOut (Sent c (Publish q))) :: post) by (rewrite E, <- app_assoc; reflexivity).
  destruct (local_runs cfg tr x c id n Hr Ht Ho i (fun _ => True) (at_publish n) _ _ _ Hyr _ _ (out_code c i f) s E1 Hy1 Hm Hend) as (Hmy & k' & s' & Hk' & Hs' & HL); auto.
  { cbn [cn_tasks]. apply (aget_put_same _ nateqb_spec). }
  { apply publish_out. }
  { left. exact Hci. }
  destruct (local_runs cfg tr x c id n Hr Ht Ho i (spare id n False) (fun _ => kept (fun _ => False) False noflight) _ _ _ Hyr _ _ (out_code c i f) s E1 Hy1 Hm Hend) as (_ & k2 & s2 & Hk2 & Hs2 & HL2); auto.
  { intros p r _ []. }
  { cbn [cn_tasks]. apply (aget_put_same _ nateqb_spec). }
  { apply local_out. apply kept_entry. exact Hv. }
  { left. exact Hci. }
  rewrite Hk in Hk', Hk2. injection Hk' as <-. injection Hk2 as <-. apply next_out in Hn. subst k.
  apply local_at in HL2. apply kept_entry in HL2. apply local_at in HL. cbn [at_publish] in HL. destruct HL as [-> HL]. specialize (HL Hid Hq).
  set (z := Mk_inflight n (pb_topic q) (pb_payload q) (pb_qos q) (pb_dup q)) in *.
  assert (E2 : tr = (pre ++ IStart (EOut c f) :: mid ++ [IStep c (OOut (Sent c (Publish q)))]) ++ post ++ []).
  { rewrite E, app_nil_r, <- app_assoc. cbn. rewrite <- app_assoc. reflexivity. }
  assert (Hpre2 : mruns cfg (conf_on st) (pre ++ IStart (EOut c f) :: mid ++ [IStep c (OOut (Sent c (Publish q)))])
    (Mk_conf (apply c (OOut (Sent c (Publish q))) (cn_world y)) (aput Nat.eqb c Finish (cn_tasks y)) (relock c (OOut (Sent c (Publish q))) (cn_locks y)) (reread c (OOut (Sent c (Publish q))) (cn_readers y)))).
  { change (IStart (EOut c f) :: mid ++ [IStep c (OOut (Sent c (Publish q)))]) with ([IStart (EOut c f)] ++ mid ++ [IStep c (OOut (Sent c (Publish q)))]).
    rewrite app_assoc. apply mruns_app. eexists. split; [exact Hy1|]. apply mruns_app. exists y. split; [exact Hyr|].
    eapply (mr_cons _ _ (MGo c)); [|constructor]. cbn [mstep]. rewrite Hk. reflexivity. }
  destruct (held_kept c id n i (fun _ => False) True z x) as (s3 & _ & _ & (st2 & Hst & _) & Hz).
  { eapply (held_runs cfg tr x c id n Hr Ht Ho i (fun _ => False) True z Hm _ _ _ Hx2 _ [] E2 Hpre2).
    - intros j Hj. split.
      + intros e -> Hec. destruct (Hua e Hj) as [S1 S2]. destruct e as [c0 fi u b|c0 p|c0 g|c0|c0|]; cbn [event_conn] in Hec; subst; cbn [spares]; auto.
        * eapply S2. reflexivity.
        * destruct p; auto; intros _; eapply S1; eauto.
      + intros p r -> _ v ->. apply Hre. exists v, r. exact Hj.
    - split; [exact Hmy|]. exists s'. cbn [cn_tasks cn_world apply]. split; [exact Hs'|]. rewrite (aget_put_same _ nateqb_spec). cbn [local]. split; [|exact I].
      split; [contradiction|]. split; [|intros _; exact HL]. unfold some_entry in HL2. destruct (fst _) as [v|]; [|congruence]. exists v. split; [reflexivity|contradiction]. }
  exists st2. split; [exact Hst|exact (Hz I)].
Qed.
(** A QoS 1 or 2 message that was sent to a client is sent to it again when it comes back after a crash at any later moment,
    unless the client has acknowledged it, or the broker has begun to send it another message with the same identifier. *)
Theorem C107_messages cfg trs st tr x c id f q n pre mid post :
  lives cfg trs st -> mruns cfg (conf_on st) tr x -> (forall d, Forall texts (events_of d tr)) -> owns c id tr ->
  tr = pre ++ IStart (EOut c f) :: mid ++ IStep c (OOut (Sent c (Publish q))) :: post -> opened c pre -> ~ In (IEnd c) mid ->
  pb_packet_id q = Some n -> (pb_qos q = AtLeastOnce \/ pb_qos q = ExactlyOnce) -> unacknowledged c n post ->
  forall d w' o', comes_back cfg (recover (w_store (cn_world x))) id d w' o' ->
    In (Sent d (Publish (Mk_publish_packet true (pb_qos q) false (pb_topic q) (Some n) None (pb_payload q)))) o' \/ reused c id n post.
Proof.
  intros Hlv Hr Ht Ho E Hop Hend Hid Hq Hua d w' o' Hb. pose proof (lives_sane _ _ _ Hlv) as Hsane. destruct (reused_dec c id n post) as [Hre|Hre]; [right; exact Hre|left].
  destruct (publish_stored _ _ _ _ _ _ _ _ _ _ _ Hr Ht Ho E Hop Hend Hid Hq Hua Hre) as (st2 & Hst & Hz). set (z := Mk_inflight _ _ _ _ _) in Hz.
  destruct Hb as (k & v & Hn2 & Ha & Hp & Hcl & H).
  assert (Hwf : wf (recover (w_store (cn_world x)))) by (split; intros ? ? Q; discriminate). apply authenticated_iff in Ha.
  assert (Hld : mem_load_session (presented k) (w_store (recover (w_store (cn_world x)))) = Some st2) by (rewrite Hp; exact Hst).
  destruct (resume_from_store cfg (recover (w_store (cn_world x))) d k v w' o' Hwf Hn2 Ha Hcl eq_refl H st2 Hld) as (j & s4 & u & _ & _ & _ & Hout & _).
  subst o'. right. apply in_map_iff. exists z. split; [reflexivity|]. apply (inflight_all _ n). rewrite Hp. exact Hz.
Qed.
Print Assumptions C107_messages.

(** ** Retained messages *)
(** What a retained PUBLISH asks the broker to keep. *)
Definition to_keep (p : publish_packet) : option message :=
  match pb_payload p with
  | None | Some [] => None
  | Some y => Some (Mk_message (pb_packet_id p) (pb_topic p) (pb_dup p) (pb_qos p) false (Some y))
  end.
Definition stored_retained (t : bytes) (st : mem_store) : option message := aget bytes_eqb t (ms_retained st).
Lemma retained_apply d o w t : (forall r, o <> OStore ClearRetained r) ->
  stored_retained t (w_store (apply d o w)) = match o with OStore (StoreRetained t' y) _ => if bytes_eqb t' t then y else stored_retained t (w_store w) | _ => stored_retained t (w_store w) end.
Proof.
  intros Hc. destruct o as [| | | | | |o r| | | | | | |]; try reflexivity. unfold stored_retained. change (w_store (apply d (OStore o r) w)) with (snd (mem_step (w_store w) o)).
  destruct o; try reflexivity; cbn [mem_step snd].
  - unfold mem_store_retained. cbn [ms_retained]. destruct (bytes_dec topic t) as [->|Et].
    + rewrite bytes_eqb_refl. destruct m; [apply (aget_put_same _ beqb_spec)|apply (aget_del_same _ beqb_spec)].
    + rewrite (bytes_eqb_neq _ _ Et). destruct m; [apply (aget_put_other _ beqb_spec)|apply (aget_del_other _ beqb_spec)]; auto.
  - destruct (Hc r eq_refl).
  - unfold mem_remove_inflight. destruct (aget bytes_eqb client (ms_inflight (w_store w))); reflexivity.
Qed.
Definition stores_topic (t : bytes) (j : item) : Prop := exists d y r, j = IStep d (OStore (StoreRetained t y) r).
Lemma stores_dec t j : stores_topic t j \/ ~ stores_topic t j.
Proof.
  destruct j as [|d o|]; try (right; intros (? & ? & ? & ?); discriminate). destruct o as [| | | | | |o r| | | | | | |]; try (right; intros (? & ? & ? & ?); discriminate).
  destruct o; try (right; intros (? & ? & ? & ?); discriminate). destruct (bytes_dec topic t) as [->|]; [left; do 3 eexists; reflexivity|right; intros (? & ? & ? & ?); congruence].
Qed.
Lemma retained_kept cfg x tr x' t : mruns cfg x tr x' -> (forall d r, ~ In (IStep d (OStore ClearRetained r)) tr) -> (forall j, In j tr -> ~ stores_topic t j) ->
  stored_retained t (w_store (cn_world x')) = stored_retained t (w_store (cn_world x)).
Proof.
  induction 1 as [x|x m x1 j tr x2 Hs Hr IH]; intros Hc Hn; [reflexivity|]. rewrite IH; [|intros d r Hi; eapply Hc; right; exact Hi|intros; apply Hn; right; assumption].
  apply mstep_inv in Hs. destruct Hs as [(e & -> & -> & _ & _ & ->)|[(d & -> & -> & _ & ->)|(d & k0 & o & k1 & -> & -> & Hd & Hnx & _ & ->)]]; try reflexivity.
  cbn [cn_world]. rewrite retained_apply by (intros r ->; eapply Hc; left; reflexivity). destruct o; try reflexivity. destruct o; try reflexivity.
  destruct (bytes_dec topic t) as [->|Et]; [|rewrite (bytes_eqb_neq _ _ Et); reflexivity]. destruct (Hn _ (or_introl eq_refl)). do 3 eexists. reflexivity.
Qed.
Lemma retained_last cfg x tr x' t y : mruns cfg x tr x' -> (forall d r, ~ In (IStep d (OStore ClearRetained r)) tr) -> last_retained t y tr ->
  stored_retained t (w_store (cn_world x')) = y.
Proof.
  intros Hr Hc (d & r & a & b & -> & Hb). destruct (step_at _ _ _ _ _ _ _ Hr) as (z & k & k1 & _ & _ & _ & _ & Hx).
  rewrite (retained_kept _ _ _ _ t Hx).
  - cbn [cn_world]. rewrite retained_apply by discriminate. rewrite bytes_eqb_refl. reflexivity.
  - intros d' r' Hi. eapply Hc. apply in_or_app. right. right. exact Hi.
  - intros j Hj (d' & y' & r' & ->). eapply Hb, Hj.
Qed.
Lemma last_exists t tr : (exists j, In j tr /\ stores_topic t j) -> exists y, last_retained t y tr.
Proof.
  induction tr as [|j tr IH]; intros (j0 & Hin & Hs); [destruct Hin|].
  assert (Hd : (exists k, In k tr /\ stores_topic t k) \/ ~ exists k, In k tr /\ stores_topic t k).
  { clear. induction tr as [|k tr IH]; [right; intros (? & [] & _)|]. destruct IH as [(k' & H1 & H2)|H]; [left; exists k'; split; [right|]; assumption|].
    destruct (stores_dec t k) as [Hk|Hk]; [left; exists k; split; [left; reflexivity|exact Hk]|right]. intros (k' & [->|H1] & H2); [auto|apply H; eauto]. }
  destruct Hd as [Hd|Hd].
  - destruct (IH Hd) as (y & d & r & a & b & -> & Hb). exists y, d, r, (j :: a), b. split; [reflexivity|exact Hb].
  - destruct Hin as [->|Hin]; [|destruct Hd; eauto]. destruct Hs as (d & y & r & ->). exists y, d, r, [], tr. split; [reflexivity|]. intros d' y' r' Hi. apply Hd. eexists. split; [exact Hi|].
    do 3 eexists. reflexivity.
Qed.
Definition after_keeping (c : nat) (p : publish_packet) (l : list obs) : Prop :=
  (exists k, In (OOut (Sent c k)) l) -> In (OStore (StoreRetained (pb_topic p) (to_keep p)) RUnit) l.
Lemma always_mono' k : forall (P Q : list obs -> Prop), (forall l, P l -> Q l) -> always P k -> always Q k.
Proof.
  induction k using code_induction; intros P Q HPQ; cbn [always]; intros [H0 HP]; (split; [apply HPQ, H0|]); auto; intros; (eapply IHk || eapply H); try exact HP; try apply HP; simpl; auto.
Qed.
Definition unsent (c : nat) (o : obs) : Prop := forall y, o <> OOut (Sent c y).
Lemma always_cons c o k : unsent c o -> always (Forall (unsent c)) k -> always (fun l => Forall (unsent c) (o :: l)) k.
Proof. intros H. apply always_mono'. intros l Hl. constructor; assumption. Qed.
Lemma unsent_sends c ps m k : always (Forall (unsent c)) k -> always (Forall (unsent c)) (sends ps m k).
Proof. intros H. induction ps; cbn [sends always]; [exact H|]. split; [constructor|]. apply always_cons; [discriminate|assumption]. Qed.
Lemma unsent_publish c t m k : always (Forall (unsent c)) k -> always (Forall (unsent c)) (publish t m k).
Proof.
  intros H. assert (Hr : always (Forall (unsent c)) (route t m k)).
  { unfold route. cbn [always]. split; [constructor|]. intros n. apply always_cons; [discriminate|]. apply unsent_sends. cbn [always]. split; [constructor|]. apply always_cons; [discriminate|exact H]. }
  unfold publish. destruct (mg_retain m); [|exact Hr]. destruct (mg_payload m) as [[|]|]; cbn [always]; (split; [constructor|]); intros; (apply always_cons; [discriminate|exact Hr]).
Qed.
Lemma unsent_end c i : always (Forall (unsent c)) (end_code c i).
Proof.
  assert (Hd : always (Forall (unsent c)) (Detach (Emit (Closed c) Finish))) by (cbn [always]; repeat split; repeat constructor; discriminate).
  unfold end_code, client_id_of. cbn [always fst snd]. split; [constructor|]. intros s n. apply always_cons; [discriminate|]. destruct (se_will s); [|exact Hd].
  apply unsent_publish. cbn [always fst snd]. repeat (split || intros || constructor); intros ? [=].
Qed.
Lemma keeping_publish p k (Q : list obs -> Prop) : pb_retain p = true -> Q [] -> (forall l, Q (OStore (StoreRetained (pb_topic p) (to_keep p)) RUnit :: l)) ->
  always Q (publish (pb_topic p) (message_of p) k).
Proof.
  intros Hr H0 HQ. unfold publish, to_keep in *. cbn [message_of mg_retain mg_payload]. rewrite Hr.
  destruct (pb_payload p) as [[|b bs]|] eqn:Ep; cbn [always]; (split; [exact H0|]); intros m; (eapply always_mono'; [|apply (always_true _)]); intros l _;
    unfold with_retain, message_of; cbn [mem_step fst mg_packet_id mg_topic mg_dup mg_qos mg_payload]; rewrite ?Ep; apply HQ.
Qed.
Lemma keeping_code c i p : pb_retain p = true -> always (after_keeping c p) (publish_code c i p).
Proof.
  intros Hr. unfold publish_code.
  assert (H0 : after_keeping c p []) by (intros (k & [])).
  destruct (validate_publish_topic _).
  - eapply always_mono'; [|apply (unsent_end c i)]. intros l Hl (k & Hk). rewrite Forall_forall in Hl. destruct (Hl _ Hk k eq_refl).
  - assert (Hgo : forall k, always (after_keeping c p) (publish (pb_topic p) (message_of p) k)).
    { intros k. apply keeping_publish; auto. intros l _. left. reflexivity. }
    destruct (pb_qos p); destruct (pb_packet_id p); try apply Hgo. cbn [always fst snd]. split; [exact H0|]. intros s n1.
    apply keeping_publish; [exact Hr|intros (k & [Hk|[]]); discriminate|]. intros l _. right. left. reflexivity.
Qed.
(** A retained PUBLISH that was answered with a PUBACK or PUBREC is what the store holds for its topic at any later moment,
    or something another handler stored since the PUBLISH arrived; so it is there if nothing else was stored. *)
Theorem C107_retained cfg trs st tr x c p k pre mid post :
  lives cfg trs st -> mruns cfg (conf_on st) tr x -> (forall d, Forall texts (events_of d tr)) -> pb_retain p = true ->
  tr = pre ++ IStart (EPacket c (Publish p)) :: mid ++ IStep c (OOut (Sent c k)) :: post -> opened c pre -> ~ In (IEnd c) mid ->
  In (IStep c (OStore (StoreRetained (pb_topic p) (to_keep p)) RUnit)) mid
  /\ exists y, last_retained (pb_topic p) y (mid ++ post) /\ stored_retained (pb_topic p) (w_store (cn_world x)) = y.
Proof.
  intros Hlv Hr Ht Hre E Hop Hend. pose proof (lives_sane _ _ _ Hlv) as Hsane. pose proof (no_clear _ _ _ Hr Ht) as Hnc. rewrite E in Hr.
  destruct (start_at _ _ _ _ _ _ Hr) as (y0 & Hy0 & Hi & _ & Hx). cbn [event_conn] in Hx, Hi.
  assert (Htp : Forall texts (events_of c pre)) by (specialize (Ht c); rewrite E in Ht; eapply texts_app_l, Ht).
  destruct (proj1 (open_conns cfg c pre y0 Hy0 Htp Hi) Hop) as (i & Hci). rewrite Hci in Hx. cbn [handler packet_code] in Hx.
  destruct (step_at _ _ _ _ _ _ _ Hx) as (y & k0 & k1 & Hyr & Hk & Hn & _ & Hx2).
  assert (Hin : In (IStep c (OStore (StoreRetained (pb_topic p) (to_keep p)) RUnit)) mid).
  { destruct (run_task _ _ _ _ Hyr c (publish_code c i p) (fun _ => True) (after_keeping c p)) as [HR _].
    - cbn [cn_tasks]. apply (aget_put_same _ nateqb_spec).
    - apply wps_true.
    - apply keeping_code, Hre.
    - destruct (HR Hend) as (_ & k' & Hk' & _ & Hal). rewrite Hk in Hk'. injection Hk' as <-. apply (always_next _ _ _ _ _ Hal) in Hn. apply always_nil in Hn.
      assert (Hs : In (OStore (StoreRetained (pb_topic p) (to_keep p)) RUnit) (steps_of c mid ++ [OOut (Sent c k)])) by (apply Hn; exists k; apply in_or_app; right; left; reflexivity).
      apply in_app_iff in Hs. destruct Hs as [Hs|[Hs|[]]]; [apply steps_in, Hs|discriminate]. }
  split; [exact Hin|].
  destruct (last_exists (pb_topic p) (mid ++ post)) as (z & Hz).
  { eexists. split; [apply in_or_app; left; exact Hin|]. do 3 eexists. reflexivity. }
  exists z. split; [exact Hz|]. eapply (retained_last _ _ _ _ _ _ Hx).
  - intros d r Hd. eapply (Hnc d r). rewrite E. apply in_or_app. right. right. exact Hd.
  - destruct Hz as (d & r & a & b & Hab & Hb). apply app_eq_app in Hab. destruct Hab as (l & [[H1 H2]|[H1 H2]]).
    + destruct l as [|j l].
      * cbn in H2. subst post. exists d, r, (a ++ [IStep c (OOut (Sent c k))]), b. split; [rewrite H1, app_nil_r, <- app_assoc; reflexivity|exact Hb].
      * injection H2 as <- H2. exists d, r, a, (l ++ IStep c (OOut (Sent c k)) :: post). split; [rewrite H1, <- app_assoc; reflexivity|].
        intros d' y' r' Hq. apply in_app_iff in Hq. destruct Hq as [Hq|[Hq|Hq]]; [|discriminate|]; eapply Hb; rewrite H2; apply in_or_app; [left|right]; exact Hq.
    + exists d, r, (mid ++ IStep c (OOut (Sent c k)) :: l), b. split; [rewrite H2, <- app_assoc; reflexivity|exact Hb].
Qed.
Print Assumptions C107_retained.

(** ** Concrete cases *)
(** The schedule of C87: two clients, at work at the same time. *)
Definition is_out (c : nat) (i : item) : bool := match i with IStep d (OOut _) => Nat.eqb d c | _ => false end.
Definition cut1 (c n : nat) (tr : list item) := fst (upto (is_out c) 0 (snd (upto (is_start c) n tr))).
Definition cut2 (c n : nat) (tr : list item) := snd (upto (is_out c) 0 (snd (upto (is_start c) n tr))).
Lemma not_ended c tr : existsb (is_end c) tr = false -> ~ In (IEnd c) tr.
Proof. intros H Hi. assert (existsb (is_end c) tr = true); [|congruence]. apply existsb_exists. eexists. split; [exact Hi|]. apply Nat.eqb_refl. Qed.
Definition gives (n : N) (j : item) : bool := match j with IStep _ (OStore (StoreInflight _ m _) _) => m =? n | _ => false end.
Lemma not_reused c id n tr : existsb (gives n) tr = false -> ~ reused c id n tr.
Proof. intros H (y & r & Hi). assert (existsb (gives n) tr = true); [|congruence]. apply existsb_exists. eexists. split; [exact Hi|]. apply N.eqb_refl. Qed.
Lemma owns_comers c id tr : (forall d i u, In (d, i, u) (comers tr) -> i <> [] /\ ((d = c /\ i = id) \/ (d <> c /\ i <> id))) -> owns c id tr.
Proof.
  intros H. split.
  - intros id' (k & u & a & H1 & H2). apply comers_in in H1. destruct (H _ _ _ H1) as [Hn Hc]. destruct H2 as [<-|[H2 _]]; [|contradiction].
    destruct Hc as [[_ Hc]|[Hc _]]; congruence.
  - intros d (k & u & a & H1 & H2). apply comers_in in H1. destruct (H _ _ _ H1) as [Hn Hc]. destruct H2 as [H2|[H2 _]]; [|contradiction]. destruct Hc as [[Hc _]|[_ Hc]]; congruence.
Qed.
Lemma ex_owns : owns 1 (str "a") ex_trace.
Proof.
  apply owns_comers. assert (H : comers ex_trace = [(1%nat, str "a", str "uuid"); (2%nat, str "b", str "uuid")]) by (vm_compute; reflexivity). rewrite H.
  intros d i u [E|[E|[]]]; injection E as <- <- <-; (split; [discriminate|]); [left; auto|right; split; discriminate].
Qed.
Lemma ex_texts : forall d, Forall texts (events_of d ex_trace).
Proof. apply texts_all. vm_compute. reflexivity. Qed.
Lemma ex_back : exists w' o', comes_back ex_open (recover (w_store (cn_world (fst (mexec ex_open ex_moves conf_new))))) (str "a") 5 w' o'.
Proof.
  do 2 eexists. exists (ex_connect "a" false), []. split; [reflexivity|]. split; [left; reflexivity|]. split; [reflexivity|]. split; [reflexivity|]. vm_compute. reflexivity.
Qed.
Example C107_subscriptions_ex : exists p a,
  mruns ex_open conf_new ex_trace (fst (mexec ex_open ex_moves conf_new))
  /\ ex_trace = part1 1 1 ex_trace ++ IStart (EPacket 1 (Subscribe p)) :: cut1 1 1 ex_trace ++ IStep 1 (OOut (Sent 1 (SubAck a))) :: cut2 1 1 ex_trace
  /\ opened 1 (part1 1 1 ex_trace) /\ ~ In (IEnd 1) (cut1 1 1 ex_trace) /\ grants p a (str "x/+") /\ stays_subscribed 1 (str "x/+") (cut2 1 1 ex_trace)
  /\ steps_of 2 (cut1 1 1 ex_trace) <> [] /\ steps_of 2 (cut2 1 1 ex_trace) <> [].
Proof.
  do 2 eexists. split; [apply mexec_runs|]. split; [vm_compute; reflexivity|]. split; [vm_compute; reflexivity|].
  split; [apply not_ended; vm_compute; reflexivity|].
  split; [exists O; do 2 eexists; split; [reflexivity|]; split; [reflexivity|auto]|].
  split; [|split; vm_compute; discriminate].
  assert (Hp : all_events (cut2 1 1 ex_trace) = [ex_pub 1 AtLeastOnce (Some 5) "x/y" "v"; ex_pub 2 ExactlyOnce (Some 6) "x/y" "w"; EOut 1 (str "x/+"); EOut 2 (str "x/y");
    EOut 1 (str "x/+"); EPacket 2 (Publish (ex_publish AtLeastOnce (Some 1) false "x/+" "v"))]) by (vm_compute; reflexivity).
  intros e Hi. apply in_events in Hi. rewrite Hp in Hi. simpl in Hi.
  repeat (destruct Hi as [<-|Hi]; [split; intros; discriminate|]). contradiction.
Qed.
Example C107_messages_ex : exists q,
  ex_trace = part1 1 3 ex_trace ++ IStart (EOut 1 (str "x/+")) :: cut1 1 3 ex_trace ++ IStep 1 (OOut (Sent 1 (Publish q))) :: cut2 1 3 ex_trace
  /\ opened 1 (part1 1 3 ex_trace) /\ ~ In (IEnd 1) (cut1 1 3 ex_trace) /\ pb_packet_id q = Some 5 /\ pb_qos q = AtLeastOnce /\ unacknowledged 1 5 (cut2 1 3 ex_trace)
  /\ ~ reused 1 (str "a") 5 (cut2 1 3 ex_trace).
Proof.
  eexists. split; [vm_compute; reflexivity|]. split; [vm_compute; reflexivity|].
  split; [apply not_ended; vm_compute; reflexivity|]. split; [reflexivity|]. split; [reflexivity|]. split.
  - assert (Hp : all_events (cut2 1 3 ex_trace) = [EOut 1 (str "x/+"); EPacket 2 (Publish (ex_publish AtLeastOnce (Some 1) false "x/+" "v"))]) by (vm_compute; reflexivity).
    intros e Hi. apply in_events in Hi. rewrite Hp in Hi. simpl in Hi.
    repeat (destruct Hi as [<-|Hi]; [split; [intros ? [?|?]|intros]; discriminate|]). contradiction.
  - apply not_reused. vm_compute. reflexivity.
Qed.
(** Two clients publish retained messages on one topic at the same time: the one acknowledged last need not be the one that stays. *)
Definition ex_keep : list move :=
  starts [ex_first 1 (ex_connect "a" true); ex_first 2 (ex_connect "b" true)] ++ rounds 60 [1; 2]%nat ++
  starts [EPacket 1 (Publish (ex_publish AtLeastOnce (Some 5) true "x/y" "v")); EPacket 2 (Publish (ex_publish AtLeastOnce (Some 6) true "x/y" "w"))] ++
  rounds 1 [1]%nat ++ rounds 60 [2]%nat ++ rounds 60 [1]%nat.
Definition ex_keep_trace := snd (mexec ex_open ex_keep conf_new).
Example C107_retained_ex : exists p k,
  mruns ex_open conf_new ex_keep_trace (fst (mexec ex_open ex_keep conf_new)) /\ (forall d, Forall texts (events_of d ex_keep_trace)) /\ pb_retain p = true
  /\ ex_keep_trace = part1 1 1 ex_keep_trace ++ IStart (EPacket 1 (Publish p)) :: cut1 1 1 ex_keep_trace ++ IStep 1 (OOut (Sent 1 k)) :: cut2 1 1 ex_keep_trace
  /\ opened 1 (part1 1 1 ex_keep_trace) /\ ~ In (IEnd 1) (cut1 1 1 ex_keep_trace) /\ option_map mg_payload (to_keep p) = Some (Some (str "v"))
  /\ option_map mg_payload (stored_retained (str "x/y") (w_store (cn_world (fst (mexec ex_open ex_keep conf_new))))) = Some (Some (str "w")).
Proof.
  do 2 eexists. split; [apply mexec_runs|]. split; [apply texts_all; vm_compute; reflexivity|]. split; [|split; [vm_compute; reflexivity|]]; [reflexivity|].
  split; [vm_compute; reflexivity|]. split; [apply not_ended; vm_compute; reflexivity|]. split; vm_compute; reflexivity.
Qed.
