(** Proofs about ConcNet.v. *)
From Verif Require Import Base Utf8 Codec SpecCodec Maps Packets SpecPackets Frame Tac FrameFacts Storage Broker Session Server SpecServer
  SessionFacts ServerFacts HandlerFacts WorldFacts SpecOutput SpecWire OutputFacts Conc SpecConc ConcFacts ConcLocks ConcRoute Network SpecNetwork NetworkFacts ConcNet SpecConcNet.

Lemma net_part_app a b : net_part (a ++ b) = net_part a ++ net_part b.
Proof. apply flat_map_app. Qed.
Lemma started_app c a b : started c (a ++ b) = started c a ++ started c b.
Proof. apply flat_map_app. Qed.
Lemma started_cons c i tr : started c (i :: tr) = started c [i] ++ started c tr.
Proof. apply (started_app c [i] tr). Qed.
Lemma started_of c e : started c [IStart e] = SpecNetwork.handled c [e].
Proof. destruct e as [d [k|] u a|d k|d f|d|d|]; cbn; try reflexivity; destruct (Nat.eqb d c); reflexivity. Qed.
Lemma started_other c e : event_of c e = false -> started c [IStart e] = [].
Proof. rewrite started_of. destruct e as [d [k|] u a|d k|d f|d|d|]; cbn; try reflexivity; intros ->; reflexivity. Qed.
Lemma bruns_app cfg p a : forall n b tr n', bruns cfg p n (a ++ b) tr n' <->
  exists n1 tr1 tr2, tr = tr1 ++ tr2 /\ bruns cfg p n a tr1 n1 /\ bruns cfg p n1 b tr2 n'.
Proof.
  induction a as [|m a IH]; intros n b tr n'; cbn [app].
  - split.
    + intros H. exists n, [], tr. split; [reflexivity|]. split; [constructor|exact H].
    + intros (n1 & tr1 & tr2 & -> & H1 & H2). inversion H1; subst. exact H2.
  - split.
    + intros H. inversion H as [|? ? n0 is ? tr0 ? Hs Hr]; subst. apply IH in Hr. destruct Hr as (n1 & tr1 & tr2 & -> & H1 & H2).
      exists n1, (is ++ tr1), tr2. split; [apply app_assoc|]. split; [econstructor; eassumption|exact H2].
    + intros (n1 & tr1 & tr2 & -> & H1 & H2). inversion H1 as [|? ? n0 is ? tr0 ? Hs Hr]; subst. rewrite <- app_assoc.
      econstructor; [exact Hs|]. apply IH. eauto 6.
Qed.

(** ** Moves *)
Lemma bstart_inv cfg n e ts n' is : bstart cfg n e ts = Some (n', is) ->
  is = [IStart e] /\ n' = Mk_bnet (bn_conf n') ts /\ mstep cfg (bn_conf n) (MStart e) = Some (bn_conf n', IStart e).
Proof.
  unfold bstart. intros H. destruct (mstep cfg (bn_conf n) (MStart e)) as [[x i]|] eqn:E; [|discriminate]. inv H. cbn.
  assert (i = IStart e); [|subst; auto]. apply mstep_inv in E.
  destruct E as [(e' & Ee & -> & _)|[(d & Ed & _)|(d & k0 & o' & k1 & Ed & _)]]; congruence.
Qed.
Lemma bstep_conf cfg p n m n' is : bstep cfg p n m = Some (n', is) -> mruns cfg (bn_conf n) is (bn_conf n').
Proof.
  assert (Hst : forall e ts, bstart cfg n e ts = Some (n', is) -> mruns cfg (bn_conf n) is (bn_conf n')).
  { intros e ts H. apply bstart_inv in H. destruct H as (-> & _ & H). econstructor; [exact H|constructor]. }
  destruct m as [[c bs|c u a|c f|c|]|c]; cbn [bstep]; intros H.
  - inv H. constructor.
  - destruct (busy c n); [discriminate|]. destruct (tk_phase _); [| |discriminate];
      destruct (poll_read p _ _) as [[[out|] b] cs]; try (eapply Hst, H); inv H; constructor.
  - destruct (tk_phase _); try discriminate. eapply Hst, H.
  - destruct (tk_phase _); try discriminate. eapply Hst, H.
  - discriminate.
  - destruct (mstep cfg (bn_conf n) (MGo c)) as [[x i]|] eqn:E; [|discriminate]. inv H. cbn. econstructor; [exact E|constructor].
Qed.
Lemma bruns_conf cfg p n ms tr n' : bruns cfg p n ms tr n' -> mruns cfg (bn_conf n) tr (bn_conf n').
Proof. induction 1 as [|n m n1 is ms tr n2 Hs _ IH]; [constructor|]. apply mruns_app. eauto using bstep_conf. Qed.

(** ** The readers *)
Definition bwell (p : profile) (n : bnet) (c : nat) (arr : list bytes) (tr : list item) : Prop :=
  let t := bn_tasks n c in
  match tk_phase t with
  | Waiting => reads_to p [] arr (started c tr) (tk_buf t) (tk_inbox t) /\ (idle c (bn_conf n) -> events_of c tr = [])
  | Serving => reads_to p [] arr (started c tr) (tk_buf t) (tk_inbox t) /\ (idle c (bn_conf n) -> is_served (cn_world (bn_conf n)) c = true)
  | Over => exists b cs, reads_to p [] arr (started c tr) b cs
  end.
(** What concerns other connections. *)
Lemma bwell_same p n n' c arr tr is : bn_tasks n' c = bn_tasks n c -> started c is = [] -> events_of c is = [] ->
  (idle c (bn_conf n') -> idle c (bn_conf n)) ->
  is_served (cn_world (bn_conf n')) c = is_served (cn_world (bn_conf n)) c ->
  bwell p n c arr tr -> bwell p n' c arr (tr ++ is).
Proof.
  intros Ht Hs He Hi Hw. unfold bwell. rewrite Ht, started_app, events_app, Hs, He, !app_nil_r, Hw.
  destruct (tk_phase (bn_tasks n c)); tauto.
Qed.
Lemma start_shape cfg x e x' : mstep cfg x (MStart e) = Some (x', IStart e) ->
  e <> ERestart /\ idle (event_conn e) x /\ cn_world x' = cn_world x /\ ~ idle (event_conn e) x' /\ (forall c, c <> event_conn e -> (idle c x' <-> idle c x)).
Proof.
  intros H. apply mstep_inv in H.
  destruct H as [(e' & Ee & _ & Hne & Hi & ->)|[(d & Ed & _)|(d & k0 & o' & k1 & Ed & _)]]; [|discriminate..].
  injection Ee as <-. split; [exact Hne|]. split; [exact Hi|]. split; [reflexivity|]. unfold idle. cbn. split.
  - rewrite (aget_put_same _ nateqb_spec). discriminate.
  - intros c Hc. rewrite (aget_put_other _ nateqb_spec) by congruence. tauto.
Qed.
Lemma bwell_start_other cfg p n n' c arr tr e : mstep cfg (bn_conf n) (MStart e) = Some (bn_conf n', IStart e) -> event_of c e = false ->
  bn_tasks n' c = bn_tasks n c -> bwell p n c arr tr -> bwell p n' c arr (tr ++ [IStart e]).
Proof.
  intros H He Ht. apply start_shape in H. destruct H as (Hne & _ & Hw & _ & Hi). apply bwell_same.
  - exact Ht.
  - apply started_other, He.
  - unfold events_of. cbn. rewrite He. reflexivity.
  - apply Hi. rewrite event_of_conn in He by exact Hne. intros ->. rewrite Nat.eqb_refl in He. discriminate.
  - rewrite Hw. reflexivity.
Qed.
Lemma bwell_start_own cfg p n n' c arr tr e : mstep cfg (bn_conf n) (MStart e) = Some (bn_conf n', IStart e) -> event_of c e = true ->
  (exists b cs, reads_to p [] arr (started c tr ++ started c [IStart e]) b cs /\
     (tk_phase (bn_tasks n' c) <> Over -> b = tk_buf (bn_tasks n' c) /\ cs = tk_inbox (bn_tasks n' c))) ->
  bwell p n' c arr (tr ++ [IStart e]).
Proof.
  intros H He (b & cs & Hr & Hb). apply start_shape in H. destruct H as (Hne & _ & _ & Hi & _).
  rewrite event_of_conn in He by exact Hne. apply Nat.eqb_eq in He.
  assert (Hc : ~ idle c (bn_conf n')) by (rewrite <- He; exact Hi).
  unfold bwell. rewrite started_app. destruct (tk_phase (bn_tasks n' c)); [| |eauto];
    (destruct Hb as [-> ->]; [discriminate|]); (split; [exact Hr|contradiction]).
Qed.
Lemma bwell_step cfg p n m n' is c arr tr : bstep cfg p n m = Some (n', is) -> bwell p n c arr tr ->
  bwell p n' c (arr ++ arrived c (net_part [m])) (tr ++ is).
Proof.
  intros H Hw. destruct m as [[d bs|d u a|d f|d|]|d]; cbn [net_part flat_map app arrived]; rewrite ?app_nil_r; cbn [bstep] in H.
  - inv H. rewrite app_nil_r. unfold bwell in *. cbn [bn_tasks bn_conf]. destruct (Nat.eqb_spec d c) as [->|Hd].
    + rewrite put_same. cbn [tk_phase tk_buf tk_inbox]. destruct (tk_phase (bn_tasks n c)).
      * destruct Hw as [A B]. split; [apply reads_to_app, A|exact B].
      * destruct Hw as [A B]. split; [apply reads_to_app, A|exact B].
      * destruct Hw as (b & cs & A). exists b, (cs ++ [bs]). apply reads_to_app, A.
    + rewrite put_other, app_nil_r by congruence. exact Hw.
  - destruct (busy d n) eqn:Eb; [discriminate|]. destruct (tk_phase (bn_tasks n d)) eqn:Eph; [| |discriminate].
    + destruct (poll_read p (tk_buf (bn_tasks n d)) (tk_inbox (bn_tasks n d))) as [[[out|] b] cs] eqn:Ep.
      * apply bstart_inv in H. destruct H as (-> & En & H). destruct (Nat.eq_dec d c) as [->|Hd].
        -- unfold bwell in Hw. rewrite Eph in Hw. destruct Hw as [A _].
           destruct (poll_on _ _ _ _ _ _ _ _ A Ep) as (b' & cs' & D & E).
           eapply bwell_start_own; [exact H|rewrite event_of_first; apply Nat.eqb_refl|].
           exists b', cs'. rewrite started_of, handled_first, Nat.eqb_refl. split; [exact D|]. rewrite En. cbn [bn_tasks]. rewrite put_same.
           cbn [tk_phase tk_buf tk_inbox]. intros Hph. destruct out as [k| | |]; [apply (E k eq_refl)| | |]; exfalso; apply Hph; reflexivity.
        -- eapply bwell_start_other; [exact H|rewrite event_of_first; apply Nat.eqb_neq, Hd| |exact Hw].
           rewrite En. cbn [bn_tasks]. apply put_other. congruence.
      * inv H. rewrite app_nil_r. unfold bwell in *. cbn [bn_tasks bn_conf]. destruct (Nat.eq_dec d c) as [->|Hd].
        -- rewrite put_same. cbn [tk_phase tk_buf tk_inbox]. rewrite Eph in Hw. destruct Hw as [A B]. split; [|exact B].
           apply poll_reads in Ep. destruct Ep as (C & -> & _). rewrite <- (app_nil_r (started c tr)). eapply reads_to_trans; eassumption.
        -- rewrite put_other by congruence. exact Hw.
    + destruct (poll_read p (tk_buf (bn_tasks n d)) (tk_inbox (bn_tasks n d))) as [[[out|] b] cs] eqn:Ep.
      * apply bstart_inv in H. destruct H as (-> & En & H). destruct (Nat.eq_dec d c) as [->|Hd].
        -- unfold bwell in Hw. rewrite Eph in Hw. destruct Hw as [A _].
           destruct (poll_on _ _ _ _ _ _ _ _ A Ep) as (b' & cs' & D & E).
           eapply bwell_start_own; [exact H|rewrite event_of_next; apply Nat.eqb_refl|].
           exists b', cs'. rewrite started_of, handled_next, Nat.eqb_refl. split; [exact D|]. rewrite En. cbn [bn_tasks]. rewrite put_same.
           cbn [tk_phase tk_buf tk_inbox]. intros Hph. destruct out as [k| | |]; [apply (E k eq_refl)| | |]; exfalso; apply Hph; reflexivity.
        -- eapply bwell_start_other; [exact H|rewrite event_of_next; apply Nat.eqb_neq, Hd| |exact Hw].
           rewrite En. cbn [bn_tasks]. apply put_other. congruence.
      * inv H. rewrite app_nil_r. unfold bwell in *. cbn [bn_tasks bn_conf]. destruct (Nat.eq_dec d c) as [->|Hd].
        -- rewrite put_same. cbn [tk_phase tk_buf tk_inbox]. rewrite Eph in Hw. destruct Hw as [A B]. split; [|exact B].
           apply poll_reads in Ep. destruct Ep as (C & -> & _). rewrite <- (app_nil_r (started c tr)). eapply reads_to_trans; eassumption.
        -- rewrite put_other by congruence. exact Hw.
  - destruct (tk_phase (bn_tasks n d)) eqn:Eph; try discriminate. apply bstart_inv in H. destruct H as (-> & En & H).
    destruct (Nat.eq_dec d c) as [->|Hd].
    + unfold bwell in Hw. rewrite Eph in Hw. destruct Hw as [A _]. eapply bwell_start_own; [exact H|apply Nat.eqb_refl|].
      rewrite En. cbn [bn_tasks started flat_map app]. rewrite app_nil_r. eauto.
    + eapply bwell_start_other; [exact H|apply Nat.eqb_neq, Hd| |exact Hw]. rewrite En. reflexivity.
  - destruct (tk_phase (bn_tasks n d)) eqn:Eph; try discriminate. apply bstart_inv in H. destruct H as (-> & En & H).
    destruct (Nat.eq_dec d c) as [->|Hd].
    + unfold bwell in Hw. rewrite Eph in Hw. destruct Hw as [A _]. eapply bwell_start_own; [exact H|apply Nat.eqb_refl|].
      rewrite En. cbn [bn_tasks started flat_map app]. rewrite app_nil_r, put_same. eauto.
    + eapply bwell_start_other; [exact H|apply Nat.eqb_neq, Hd| |exact Hw]. rewrite En. cbn [bn_tasks]. apply put_other. congruence.
  - discriminate.
  - destruct (mstep cfg (bn_conf n) (MGo d)) as [[x i]|] eqn:E; [|discriminate]. inv H. apply mstep_inv in E.
    destruct E as [(e & Ee & _)|[(d' & Ed & -> & Hk & ->)|(d' & k0 & o & k1 & Ed & -> & Hk & Hn & _ & ->)]]; [discriminate| |]; injection Ed as <-.
    + destruct (Nat.eq_dec d c) as [->|Hd].
      * unfold bwell in *. cbn [bn_tasks bn_conf cn_world]. rewrite put_same, started_app, events_app. cbn [started flat_map app]. rewrite !app_nil_r.
        unfold after_handler. cbn [tk_phase tk_buf tk_inbox]. destruct (tk_phase (bn_tasks n c)); [| |exact Hw]; destruct Hw as [A _];
          (destruct (is_served (cn_world (bn_conf n)) c); [split; [exact A|reflexivity]|eauto]).
      * eapply bwell_same; [| | | | |exact Hw]; cbn [bn_tasks bn_conf cn_world]; try reflexivity; [apply put_other; congruence|].
        unfold idle. cbn. rewrite (aget_del_other _ nateqb_spec) by congruence. auto.
    + destruct (Nat.eq_dec d c) as [->|Hd].
      * unfold bwell in *. cbn [bn_tasks bn_conf cn_world cn_tasks]. rewrite started_app, events_app. cbn [started flat_map app]. rewrite !app_nil_r.
        assert (Hni : forall P, idle c (Mk_conf (apply c o (cn_world (bn_conf n))) (aput Nat.eqb c k1 (cn_tasks (bn_conf n))) (relock c o (cn_locks (bn_conf n)))
          (reread c o (cn_readers (bn_conf n)))) -> P).
        { intros P Hi. exfalso. unfold idle in Hi. cbn in Hi. rewrite (aget_put_same _ nateqb_spec) in Hi. discriminate. }
        destruct (tk_phase (bn_tasks n c)); [| |exact Hw]; (split; [apply Hw|apply Hni]).
      * eapply bwell_same; [| | | | |exact Hw]; cbn [bn_tasks bn_conf cn_world]; try reflexivity.
        -- unfold idle. cbn. rewrite (aget_put_other _ nateqb_spec) by congruence. auto.
        -- unfold is_served. rewrite conns_apply by congruence. reflexivity.
Qed.
Lemma bwell_runs cfg p n ms tr n' c : bruns cfg p n ms tr n' -> forall arr tr0, bwell p n c arr tr0 ->
  bwell p n' c (arr ++ arrived c (net_part ms)) (tr0 ++ tr).
Proof.
  induction 1 as [n|n m n1 is ms tr n2 Hs _ IH]; intros arr tr0 Hw; [cbn; rewrite !app_nil_r; exact Hw|].
  change (m :: ms) with ([m] ++ ms). rewrite net_part_app, arrived_app, !app_assoc. apply IH. eapply bwell_step; eassumption.
Qed.
Lemma bwell_on st cfg p ms tr n c : bruns cfg p (bnet_on st) ms tr n -> bwell p n c (arrived c (net_part ms)) tr.
Proof. intros H. apply (bwell_runs _ _ _ _ _ _ c H [] []). unfold bwell. cbn. split; [constructor|reflexivity]. Qed.
Lemma bruns_reads st cfg p ms tr n c : bruns cfg p (bnet_on st) ms tr n ->
  exists b cs, reads_to p [] (arrived c (net_part ms)) (started c tr) b cs.
Proof. intros H. apply (bwell_on _ _ _ _ _ _ c) in H. unfold bwell in H. destruct (tk_phase _); [destruct H; eauto..|exact H]. Qed.

(** ** Strings *)
Lemma received_texts e : from_network e -> texts e.
Proof.
  destruct e as [c k u a|c k|c f|c|c|]; cbn; auto. destruct k; auto; intros H.
  - apply received_lenient in H. destruct H as (v & x & m & q & t & id & ps & ps' & d & _ & _ & Ht & _). eapply string_wf in Ht. apply Ht.
  - apply received_subscribe in H. destruct H as [_ H]. eapply Forall_impl; [|exact H]. intros fo Hf. apply Hf.
Qed.
Lemma in_started c e tr k : In (IStart e) tr -> (e = EPacket c k \/ exists u a, e = EFirst c (Some k) u a) -> In k (started c tr).
Proof.
  intros H He. apply in_split in H. destruct H as (x & y & ->). rewrite started_app, started_cons. apply in_or_app. right. apply in_or_app. left.
  destruct He as [->|(u & a & ->)]; cbn; rewrite Nat.eqb_refl; left; reflexivity.
Qed.
Lemma polled cfg p n ms tr n' c k u a : bruns cfg p n ms tr n' -> In (IStart (EFirst c k u a)) tr -> In (NPoll c u a) (net_part ms).
Proof.
  induction 1 as [n|n m n1 is ms tr n2 Hs _ IH]; [intros []|]. intros Hin. change (m :: ms) with ([m] ++ ms). rewrite net_part_app. apply in_or_app.
  apply in_app_or in Hin. destruct Hin as [Hin|Hin]; [left|right; auto].
  assert (Hb : forall e ts, bstart cfg n e ts = Some (n1, is) -> e = EFirst c k u a).
  { intros e ts H. apply bstart_inv in H. destruct H as (-> & _ & _). destruct Hin as [Hin|[]]. congruence. }
  destruct m as [[d bs|d v x|d f|d|]|d]; cbn [bstep] in Hs.
  - inv Hs. destruct Hin.
  - destruct (busy d n); [discriminate|]. destruct (tk_phase _); [| |discriminate];
      destruct (poll_read p _ _) as [[[out|] b] cs]; try (inv Hs; destruct Hin); apply Hb in Hs; destruct out; cbn in Hs; try discriminate;
      inversion Hs; subst; left; reflexivity.
  - destruct (tk_phase _); try discriminate. apply Hb in Hs. discriminate.
  - destruct (tk_phase _); try discriminate. apply Hb in Hs. discriminate.
  - discriminate.
  - destruct (mstep cfg (bn_conf n) (MGo d)) as [[x i]|] eqn:E; [|discriminate]. inv Hs. destruct Hin as [->|[]]. apply mstep_inv in E.
    destruct E as [(e & Ee & _)|[(d' & _ & Ed & _)|(d' & k0 & o & k1 & _ & Ed & _)]]; discriminate.
Qed.
Lemma bruns_network st cfg p ms tr n : bruns cfg p (bnet_on st) ms tr n -> genuine (net_part ms) ->
  forall e, In (IStart e) tr -> from_network e.
Proof.
  intros H [Hb Hu] e He.
  assert (Hr : forall c k, In k (started c tr) -> received k).
  { intros c k Hk. destruct (Hb c) as [B L]. destruct (bruns_reads _ _ _ _ _ _ c H) as (b & cs & Hx).
    apply (reads_to_received p [] _ _ _ _ Hx) in B; [|exact L]. rewrite Forall_forall in B. auto. }
  destruct e as [c [k|] u a|c k|c f|c|c|]; cbn; auto.
  - split; [eapply Hr, in_started; [exact He|right; eauto]|]. eapply Hu. eapply polled; eassumption.
  - eapply Hr, in_started; [exact He|left; reflexivity].
Qed.
Lemma bruns_texts st cfg p ms tr n : bruns cfg p (bnet_on st) ms tr n -> genuine (net_part ms) -> forall c, Forall texts (events_of c tr).
Proof.
  intros H Hg c. apply Forall_forall. intros e He. apply received_texts. eapply bruns_network; [exact H|exact Hg|].
  unfold events_of in He. apply in_flat_map in He. destruct He as (i & Hi & He). destruct i; try destruct He.
  destruct (event_of c e0); [|destruct He]. destruct He as [->|[]]. exact Hi.
Qed.

(** ** Conversations *)
(** The run up to the start of a handler. *)
Lemma bruns_at cfg p n ms tr n' : bruns cfg p n ms tr n' -> forall pre e post, tr = pre ++ IStart e :: post ->
  exists m1 m m2 n1 n2, ms = m1 ++ m :: m2 /\ bruns cfg p n m1 pre n1 /\ bstep cfg p n1 m = Some (n2, [IStart e]) /\ bruns cfg p n2 m2 post n'.
Proof.
  induction 1 as [n|n m n1 is ms tr n2 Hs H IH]; intros pre e post E; [destruct pre; discriminate|].
  assert (Hl : is = [] \/ exists i, is = [i]).
  { assert (Hb : forall e ts, bstart cfg n e ts = Some (n1, is) -> exists i, is = [i]) by (intros e0 ts Hx; apply bstart_inv in Hx; destruct Hx as (-> & _); eauto).
    destruct m as [[d bs|d v x|d f|d|]|d]; cbn [bstep] in Hs.
    - inv Hs. auto.
    - destruct (busy d n); [discriminate|]. destruct (tk_phase _); [| |discriminate];
        destruct (poll_read p _ _) as [[[out|] b] cs]; eauto; inv Hs; auto.
    - destruct (tk_phase _); try discriminate. eauto.
    - destruct (tk_phase _); try discriminate. eauto.
    - discriminate.
    - destruct (mstep cfg (bn_conf n) (MGo d)) as [[x i]|]; [|discriminate]. inv Hs. eauto. }
  destruct Hl as [->|[i ->]].
  - destruct (IH _ _ _ E) as (m1 & m' & m2 & n3 & n4 & -> & A & B & C). exists (m :: m1), m', m2, n3, n4. split; [reflexivity|].
    split; [|auto]. change pre with ([] ++ pre). econstructor; eassumption.
  - destruct pre as [|j pre]; cbn [app] in E; inversion E; subst.
    + exists [], m, ms, n, n1. split; [reflexivity|]. split; [constructor|]. auto.
    + destruct (IH _ _ _ eq_refl) as (m1 & m' & m2 & n3 & n4 & -> & A & B & C). exists (m :: m1), m', m2, n3, n4. split; [reflexivity|].
      split; [|auto]. change (j :: pre) with ([j] ++ pre). econstructor; eassumption.
Qed.
(** Events that start a conversation come when there was nothing, the others while the connection is served. *)
Lemma start_phase cfg p n m n' e c : bstep cfg p n m = Some (n', [IStart e]) -> event_of c e = true ->
  idle c (bn_conf n) /\
  (if match e with EFirst _ _ _ _ => true | _ => false end then tk_phase (bn_tasks n c) = Waiting else tk_phase (bn_tasks n c) = Serving).
Proof.
  intros H He.
  assert (Hb : forall e0 ts, bstart cfg n e0 ts = Some (n', [IStart e]) -> e0 = e /\ idle c (bn_conf n)).
  { intros e0 ts Hx. apply bstart_inv in Hx. destruct Hx as (E & _ & Hx). injection E as <-. split; [reflexivity|].
    apply start_shape in Hx. destruct Hx as (Hne & Hi & _). rewrite event_of_conn in He by exact Hne. apply Nat.eqb_eq in He. subst c. exact Hi. }
  destruct m as [[d bs|d v x|d f|d|]|d]; cbn [bstep] in H.
  - discriminate.
  - destruct (busy d n); [discriminate|]. destruct (tk_phase (bn_tasks n d)) eqn:Eph; [| |discriminate];
      destruct (poll_read p _ _) as [[[out|] b] cs]; try discriminate; apply Hb in H; destruct H as [<- Hi]; (split; [exact Hi|]).
    + rewrite event_of_first in He. apply Nat.eqb_eq in He. subst d. destruct out; exact Eph.
    + rewrite event_of_next in He. apply Nat.eqb_eq in He. subst d. destruct out; exact Eph.
  - destruct (tk_phase (bn_tasks n d)) eqn:Eph; try discriminate. apply Hb in H. destruct H as [<- Hi]. split; [exact Hi|].
    cbn in He. apply Nat.eqb_eq in He. subst d. exact Eph.
  - destruct (tk_phase (bn_tasks n d)) eqn:Eph; try discriminate. apply Hb in H. destruct H as [<- Hi]. split; [exact Hi|].
    cbn in He. apply Nat.eqb_eq in He. subst d. exact Eph.
  - discriminate.
  - destruct (mstep cfg (bn_conf n) (MGo d)) as [[x i]|] eqn:E; [|discriminate]. injection H as _ ->. apply mstep_inv in E.
    destruct E as [(e' & Ee & _)|[(d' & _ & Ed & _)|(d' & k0 & o & k1 & _ & Ed & _)]]; discriminate.
Qed.
Lemma over_stays cfg p n m n' is c : bstep cfg p n m = Some (n', is) -> tk_phase (bn_tasks n c) = Over ->
  tk_phase (bn_tasks n' c) = Over /\ started c is = [].
Proof.
  intros H Ho.
  assert (Hb : forall e ts, bstart cfg n e ts = Some (n', is) -> event_of c e = false -> tk_phase (ts c) = Over ->
    tk_phase (bn_tasks n' c) = Over /\ started c is = []).
  { intros e ts Hx He Ht. apply bstart_inv in Hx. destruct Hx as (-> & En & _). rewrite En. split; [exact Ht|]. apply started_other, He. }
  destruct m as [[d bs|d v x|d f|d|]|d]; cbn [bstep] in H.
  - inv H. cbn [bn_tasks]. split; [|reflexivity]. destruct (Nat.eq_dec c d) as [->|Hd]; [rewrite put_same; exact Ho|rewrite put_other by exact Hd; exact Ho].
  - destruct (busy d n); [discriminate|]. destruct (Nat.eq_dec c d) as [->|Hd]; [rewrite Ho in H; discriminate|].
    destruct (tk_phase (bn_tasks n d)); [| |discriminate]; destruct (poll_read p _ _) as [[[out|] b] cs].
    + eapply Hb; [exact H|rewrite event_of_first; apply Nat.eqb_neq; congruence|]. rewrite put_other by exact Hd. exact Ho.
    + inv H. cbn. rewrite put_other by exact Hd. auto.
    + eapply Hb; [exact H|rewrite event_of_next; apply Nat.eqb_neq; congruence|]. rewrite put_other by exact Hd. exact Ho.
    + inv H. cbn. rewrite put_other by exact Hd. auto.
  - destruct (tk_phase (bn_tasks n d)) eqn:E; try discriminate. eapply Hb; [exact H| |exact Ho]. apply Nat.eqb_neq. congruence.
  - destruct (tk_phase (bn_tasks n d)) eqn:E; try discriminate. assert (c <> d) by congruence.
    eapply Hb; [exact H|apply Nat.eqb_neq; congruence|]. rewrite put_other by assumption. exact Ho.
  - discriminate.
  - destruct (mstep cfg (bn_conf n) (MGo d)) as [[x i]|] eqn:E; [|discriminate]. inv H. cbn [bn_tasks]. apply mstep_inv in E.
    destruct E as [(e & Ee & _)|[(d' & _ & -> & _)|(d' & k0 & o & k1 & _ & -> & _)]]; [discriminate| |]; (split; [|reflexivity]); [|exact Ho].
    destruct (Nat.eq_dec c d) as [->|Hd]; [rewrite put_same; unfold after_handler; rewrite Ho; reflexivity|rewrite put_other by exact Hd; exact Ho].
Qed.
Lemma over_stays_runs cfg p n ms tr n' c : bruns cfg p n ms tr n' -> tk_phase (bn_tasks n c) = Over -> tk_phase (bn_tasks n' c) = Over /\ started c tr = [].
Proof.
  induction 1 as [n|n m n1 is ms tr n2 Hs _ IH]; [auto|]. intros Ho. destruct (over_stays _ _ _ _ _ _ _ Hs Ho) as [A B]. destruct (IH A) as [C D].
  rewrite started_app, B, D. auto.
Qed.
(** A task panics while it reads. *)
Lemma panic_start cfg p n m n' c : bstep cfg p n m = Some (n', [IStart (EPanic c)]) ->
  tk_phase (bn_tasks n' c) = Over /\ net_part [m] <> [] /\ arrived c (net_part [m]) = [] /\
  exists b cs, poll_read p (tk_buf (bn_tasks n c)) (tk_inbox (bn_tasks n c)) = (Some RPanic, b, cs).
Proof.
  intros H.
  assert (Hb : forall e ts, bstart cfg n e ts = Some (n', [IStart (EPanic c)]) -> e = EPanic c /\ bn_tasks n' = ts).
  { intros e ts Hx. apply bstart_inv in Hx. destruct Hx as (E & En & _). injection E as <-. rewrite En. auto. }
  destruct m as [[d bs|d v x|d f|d|]|d]; cbn [bstep] in H.
  - discriminate.
  - destruct (busy d n); [discriminate|]. destruct (tk_phase (bn_tasks n d)) eqn:Eph; [| |discriminate];
      destruct (poll_read p (tk_buf (bn_tasks n d)) (tk_inbox (bn_tasks n d))) as [[[out|] b] cs] eqn:Ep; try discriminate; apply Hb in H;
      destruct H as [He Hts]; destruct out; try discriminate. injection He as ->.
    rewrite Hts, put_same. split; [reflexivity|]. split; [discriminate|]. split; [reflexivity|]. eauto.
  - destruct (tk_phase _); try discriminate. apply Hb in H. destruct H. discriminate.
  - destruct (tk_phase _); try discriminate. apply Hb in H. destruct H. discriminate.
  - discriminate.
  - destruct (mstep cfg (bn_conf n) (MGo d)) as [[x i]|] eqn:E; [|discriminate]. injection H as _ ->. apply mstep_inv in E.
    destruct E as [(e' & Ee & _)|[(d' & _ & Ed & _)|(d' & k0 & o & k1 & _ & Ed & _)]]; discriminate.
Qed.
(** A handler that has been started has returned when nothing of the connection is being handled. *)
Lemma has_ended cfg x tr x' c : mruns cfg x tr x' -> ~ idle c x -> idle c x' -> exists mid post, tr = mid ++ IEnd c :: post /\ ~ In (IEnd c) mid.
Proof.
  induction 1 as [x|x m x1 i tr x2 Hs Hr IH]; [contradiction|]. intros Hn Hi. pose proof Hs as Hs'. apply mstep_inv in Hs.
  destruct Hs as [(e & -> & -> & Hne & Hie & ->)|[(d & -> & -> & Hk & ->)|(d & k0 & o & k1 & -> & -> & Hk & _ & _ & ->)]].
  - destruct IH as (mid & post & -> & Hm); [|exact Hi|].
    + unfold idle. cbn. destruct (Nat.eq_dec c (event_conn e)) as [->|Hd]; [rewrite (aget_put_same _ nateqb_spec); discriminate|].
      rewrite (aget_put_other _ nateqb_spec) by congruence. exact Hn.
    + exists (IStart e :: mid), post. split; [reflexivity|]. intros [E|E]; [discriminate|auto].
  - destruct (Nat.eq_dec c d) as [->|Hd]; [exists [], tr; auto|].
    destruct IH as (mid & post & -> & Hm); [|exact Hi|].
    + unfold idle. cbn. rewrite (aget_del_other _ nateqb_spec) by congruence. exact Hn.
    + exists (IEnd d :: mid), post. split; [reflexivity|]. intros [E|E]; [congruence|auto].
  - destruct IH as (mid & post & -> & Hm); [|exact Hi|].
    + unfold idle. cbn. destruct (Nat.eq_dec c d) as [->|Hd]; [rewrite (aget_put_same _ nateqb_spec); discriminate|].
      rewrite (aget_put_other _ nateqb_spec) by congruence. exact Hn.
    + exists (IStep d o :: mid), post. split; [reflexivity|]. intros [E|E]; [discriminate|auto].
Qed.
(** The start of the handler of a packet. *)
Lemma started_at c tr : forall n k, nth_error (started c tr) n = Some k ->
  exists pre e post, tr = pre ++ IStart e :: post /\ event_of c e = true /\ started c pre = firstn n (started c tr) /\
    (e = EPacket c k \/ exists u a, e = EFirst c (Some k) u a).
Proof.
  induction tr as [|i tr IH]; intros n k H; [destruct n; discriminate|]. rewrite started_cons in H.
  assert (Hi : started c [i] = [] \/ exists e k', i = IStart e /\ event_of c e = true /\ started c [i] = [k'] /\ (e = EPacket c k' \/ exists u a, e = EFirst c (Some k') u a)).
  { destruct i as [e|d o|d]; [|auto..]. destruct e as [d [k'|] u a|d k'|d f|d|d|]; auto; cbn; destruct (Nat.eqb_spec d c) as [->|Hd]; auto; right.
    - exists (EFirst c (Some k') u a), k'. cbn. rewrite Nat.eqb_refl. eauto 10.
    - exists (EPacket c k'), k'. cbn. rewrite Nat.eqb_refl. eauto 6. }
  destruct Hi as [Hi|(e & k' & -> & He & Hi & Hk)].
  - rewrite Hi in H. cbn [app] in H. destruct (IH _ _ H) as (pre & e & post & -> & A & B & C). exists (i :: pre), e, post. split; [reflexivity|].
    split; [exact A|]. split; [|exact C]. rewrite (started_cons c i pre), (started_cons c i (pre ++ IStart e :: post)), Hi. exact B.
  - rewrite Hi in H. destruct n as [|n]; cbn [app nth_error] in H.
    + injection H as ->. exists [], e, tr. auto.
    + destruct (IH _ _ H) as (pre & e' & post & -> & A & B & C). exists (IStart e :: pre), e', post. split; [reflexivity|].
      split; [exact A|]. split; [|exact C]. rewrite (started_cons c _ pre), (started_cons c _ (pre ++ IStart e' :: post)), Hi. cbn [app firstn]. rewrite B. reflexivity.
Qed.

(** ** Handlers that run one after the other *)
Lemma lift_go cfg p c x tr x' : mruns cfg x tr x' -> only_steps tr -> forall k ts, cn_tasks x = [(c, k)] -> cn_tasks x' = [] ->
  exists ms ts', bruns cfg p (Mk_bnet x ts) ms tr (Mk_bnet x' ts') /\ net_part ms = [] /\ (forall d, d <> c -> ts' d = ts d) /\
    ts' c = after_handler (cn_world x') c (ts c).
Proof.
  induction 1 as [x|x m x1 i tr x2 Hs Hr IH]; intros Ho k ts Hx Hx'; [rewrite Hx in Hx'; discriminate|].
  inversion Ho as [|? ? Ho1 Ho2]; subst. pose proof Hs as Hs'. apply mstep_inv in Hs.
  destruct Hs as [(e & -> & -> & _)|[(d & -> & -> & Hk & ->)|(d & k0 & o & k1 & -> & -> & Hk & Hn & Hm & ->)]]; [destruct Ho1| |].
  - assert (d = c) as -> by (rewrite Hx in Hk; cbn in Hk; destruct (Nat.eqb_spec d c); [assumption|discriminate]).
    assert (Ht : tr = [] /\ x2 = Mk_conf (cn_world x) (adel Nat.eqb c (cn_tasks x)) (cn_locks x) (cn_readers x)).
    { inversion Hr as [|? m y i ? ? Hs Hr']; subst; [auto|]. exfalso. apply mstep_inv in Hs. rewrite Hx in Hs. cbn in Hs. rewrite Nat.eqb_refl in Hs. cbn in Hs.
      inversion Ho2 as [|? ? Hi _]; subst.
      destruct Hs as [(e & -> & -> & _)|[(d & -> & -> & Hk' & _)|(d & k0 & o & k1 & -> & -> & Hk' & _)]]; [destruct Hi|discriminate..]. }
    destruct Ht as [-> ->].
    exists [BGo c], (put_task c (after_handler (cn_world x) c (ts c)) ts). split; [|split; [reflexivity|split]].
    + change [IEnd c] with ([IEnd c] ++ []). econstructor; [|constructor]. cbn [bstep bn_conf bn_tasks]. rewrite Hs'. reflexivity.
    + intros d Hd. apply put_other, Hd.
    + apply put_same.
  - assert (d = c) as -> by (rewrite Hx in Hk; cbn in Hk; destruct (Nat.eqb_spec d c); [assumption|discriminate]).
    destruct (IH Ho2 k1 ts) as (ms & ts' & A & B & C & D).
    { cbn [cn_tasks]. rewrite Hx. cbn. rewrite Nat.eqb_refl. reflexivity. }
    { exact Hx'. }
    exists (BGo c :: ms), ts'. split; [|split; [exact B|split; [exact C|exact D]]].
    change (IStep c o :: tr) with ([IStep c o] ++ tr). econstructor; [|exact A]. cbn [bstep bn_conf bn_tasks]. rewrite Hs'. reflexivity.
Qed.
Lemma lift_event cfg p n w e ts : bn_conf n = Mk_conf w [] [] [] -> wf w -> e <> ERestart ->
  exists n1 ms tr n2, bstart cfg n e ts = Some (n1, [IStart e]) /\ bruns cfg p n1 ms tr n2 /\ net_part ms = [] /\
    bn_conf n2 = Mk_conf (fst (step cfg w e)) [] [] [] /\
    all_outputs tr = snd (step cfg w e) /\ all_events tr = [] /\
    (forall d, d <> event_conn e -> bn_tasks n2 d = ts d) /\
    bn_tasks n2 (event_conn e) = after_handler (fst (step cfg w e)) (event_conn e) (ts (event_conn e)).
Proof.
  intros Hc Hw Hne. set (x1 := Mk_conf w [(event_conn e, handler cfg (aget Nat.eqb (event_conn e) (w_conns w)) e)] [] []).
  assert (Hstart : mstep cfg (Mk_conf w [] [] []) (MStart e) = Some (x1, IStart e)) by (destruct e; try reflexivity; congruence).
  assert (Hinv : inv (Mk_conf w [] [] [])).
  { split; [exact Hw|]. split; [discriminate|]. exists (fun _ => HNone). repeat split; try discriminate; try tauto.
    - destruct l; discriminate.
    - intros []. }
  destruct (solo_runs cfg (event_conn e) _ x1 (inv_step _ _ _ _ _ Hinv Hstart) eq_refl) as (tr & Hr & Ho & Hst).
  cbn [cn_world x1] in *. rewrite solo_step in * by assumption.
  destruct (one_task_outputs _ _ _ _ (event_conn e) Hr Hst) as [Ha Hb].
  { simpl. intros d Hd. destruct (Nat.eqb_spec d (event_conn e)); [congruence|reflexivity]. }
  destruct (lift_go cfg p (event_conn e) _ _ _ Hr Hst _ ts eq_refl eq_refl) as (ms & ts' & A & B & C & D).
  exists (Mk_bnet x1 ts), ms, tr, (Mk_bnet (Mk_conf (fst (step cfg w e)) [] [] []) ts').
  split; [unfold bstart; rewrite Hc, Hstart; reflexivity|]. split; [exact A|]. split; [exact B|]. split; [reflexivity|].
  split; [rewrite Ha; exact Ho|]. split; [exact Hb|]. split; [exact C|exact D].
Qed.
Lemma served_after cfg w c out w' o : wf w -> ~ not_served w c -> (forall k, out <> RPacket k) -> step cfg w (next_event c out) = (w', o) -> is_served w' c = false.
Proof. intros. apply not_served_unserved. eapply next_event_over; eassumption. Qed.
Lemma network_lifts cfg p h : ~ In NRestart h ->
  exists ms tr n, bruns cfg p (bnet_on mem_new) ms tr n /\ bn_conf n = Mk_conf (nt_world (net_state cfg p h)) [] [] [] /\
    (forall c, bn_tasks n c = nt_tasks (net_state cfg p h) c) /\ (forall c, arrived c (net_part ms) = arrived c h) /\
    all_outputs tr = net_outputs cfg p h /\ all_events tr = nhistory cfg p h network_new.
Proof.
  induction h as [|ev h IH] using rev_ind; intros Hre.
  - exists [], [], (bnet_on mem_new). split; [constructor|]. repeat split.
  - destruct IH as (ms & tr & n & Hr & Hc & Ht & Har & Ho & He); [intros H; apply Hre, in_or_app; auto|].
    assert (Hev : ev <> NRestart) by (intros ->; apply Hre, in_or_app; right; left; reflexivity). clear Hre.
    pose proof (fun c => well_run cfg p h c) as Hwell. pose proof (net_wf cfg p h) as Hwf.
    rewrite net_state_snoc, net_outputs_snoc, nhistory_snoc, <- Ho, <- He. set (N := net_state cfg p h) in *. clearbody N.
    (* nothing happens *)
    assert (Hno : forall ts, net_happens p N ev = ([], ts) -> (forall c, arrived c [ev] = []) -> (forall c, ts c = nt_tasks N c) ->
      exists ms tr' n, bruns cfg p (bnet_on mem_new) ms tr' n /\ bn_conf n = Mk_conf (nt_world (fst (nstep cfg p N ev))) [] [] [] /\
        (forall c, bn_tasks n c = nt_tasks (fst (nstep cfg p N ev)) c) /\ (forall c, arrived c (net_part ms) = arrived c (h ++ [ev])) /\
        all_outputs tr' = all_outputs tr ++ snd (nstep cfg p N ev) /\ all_events tr' = all_events tr ++ fst (net_happens p N ev)).
    { intros ts Hh Ha Hts. exists ms, tr, n. unfold nstep. rewrite Hh. cbn. rewrite !app_nil_r. split; [exact Hr|]. split; [exact Hc|].
      split; [intros c; rewrite Hts; apply Ht|]. split; [intros c; rewrite arrived_app, Ha, app_nil_r; apply Har|]. auto. }
    (* only a buffer changes *)
    assert (Hbuf : forall ts n1, net_happens p N ev = ([], ts) -> bstep cfg p n (BNet ev) = Some (n1, []) -> bn_conf n1 = bn_conf n ->
        (forall c, bn_tasks n1 c = ts c) ->
      exists ms tr' n, bruns cfg p (bnet_on mem_new) ms tr' n /\ bn_conf n = Mk_conf (nt_world (fst (nstep cfg p N ev))) [] [] [] /\
        (forall c, bn_tasks n c = nt_tasks (fst (nstep cfg p N ev)) c) /\ (forall c, arrived c (net_part ms) = arrived c (h ++ [ev])) /\
        all_outputs tr' = all_outputs tr ++ snd (nstep cfg p N ev) /\ all_events tr' = all_events tr ++ fst (net_happens p N ev)).
    { intros ts n1 Hh Hb Hc1 Hts. exists (ms ++ [BNet ev]), tr, n1. unfold nstep. rewrite Hh. cbn. rewrite !app_nil_r.
      split; [apply bruns_app; exists n, tr, []; split; [symmetry; apply app_nil_r|]; split; [exact Hr|]; change (@nil item) with (@nil item ++ []); econstructor; [exact Hb|constructor]|].
      split; [congruence|]. split; [exact Hts|]. split; [intros c; rewrite net_part_app, !arrived_app, Har; reflexivity|]. auto. }
    (* a handler *)
    assert (Hone : forall e ts tsb, net_happens p N ev = ([e], ts) -> e <> ERestart -> arrived (event_conn e) [ev] = [] ->
        bstep cfg p n (BNet ev) = bstart cfg n e tsb ->
        (forall d, d <> event_conn e -> tsb d = ts d) -> tk_buf (tsb (event_conn e)) = tk_buf (ts (event_conn e)) ->
        tk_inbox (tsb (event_conn e)) = tk_inbox (ts (event_conn e)) ->
        (tk_phase (tsb (event_conn e)) = Over -> is_served (fst (step cfg (nt_world N) e)) (event_conn e) = false) ->
      exists ms tr' n, bruns cfg p (bnet_on mem_new) ms tr' n /\ bn_conf n = Mk_conf (nt_world (fst (nstep cfg p N ev))) [] [] [] /\
        (forall c, bn_tasks n c = nt_tasks (fst (nstep cfg p N ev)) c) /\ (forall c, arrived c (net_part ms) = arrived c (h ++ [ev])) /\
        all_outputs tr' = all_outputs tr ++ snd (nstep cfg p N ev) /\ all_events tr' = all_events tr ++ fst (net_happens p N ev)).
    { intros e ts tsb Hh Hne Ha Hb Hd Hbf Hib Hph.
      destruct (lift_event cfg p n (nt_world N) e tsb Hc Hwf Hne) as (n1 & ms2 & tr2 & n2 & A & B & C & D & E & F & G & H).
      exists (ms ++ BNet ev :: ms2), (tr ++ IStart e :: tr2), n2. unfold nstep. rewrite Hh, run_one.
      destruct (step cfg (nt_world N) e) as [w o] eqn:Es. cbn [fst snd nt_world nt_tasks] in *.
      split; [|split; [exact D|split; [|split; [|split]]]].
      - apply bruns_app. exists n, tr, (IStart e :: tr2). split; [reflexivity|]. split; [exact Hr|].
        change (IStart e :: tr2) with ([IStart e] ++ tr2). econstructor; [rewrite Hb; exact A|exact B].
      - intros d. assert (Hp : net_phase w e ts = put_task (event_conn e) (Mk_task (if is_served w (event_conn e) then Serving else Over)
          (tk_buf (ts (event_conn e))) (tk_inbox (ts (event_conn e)))) ts) by (destruct e; try reflexivity; congruence).
        rewrite Hp. destruct (Nat.eq_dec d (event_conn e)) as [->|Hde].
        + rewrite put_same, H. unfold after_handler. rewrite Hbf, Hib. destruct (tk_phase (tsb (event_conn e))); try reflexivity. rewrite (Hph eq_refl). reflexivity.
        + rewrite put_other by exact Hde. rewrite G by exact Hde. apply Hd, Hde.
      - intros c. rewrite net_part_app. change (BNet ev :: ms2) with ([BNet ev] ++ ms2). rewrite net_part_app, C, app_nil_r, !arrived_app, Har. reflexivity.
      - unfold all_outputs in *. rewrite flat_map_app. cbn. rewrite E. reflexivity.
      - unfold all_events in *. rewrite flat_map_app. cbn. rewrite F. reflexivity. }
    assert (Hbusy : forall d, busy d n = false) by (intros d; unfold busy; rewrite Hc; reflexivity).
    destruct ev as [d bs|d u a|d f|d|]; [| | | |congruence]; cbn [net_happens] in *.
    + eapply Hbuf; [reflexivity|reflexivity|reflexivity|]. cbn. intros c. unfold put_task. rewrite Ht. destruct (Nat.eqb c d); [reflexivity|apply Ht].
    + specialize (Hwell d). unfold well in Hwell. destruct (tk_phase (nt_tasks N d)) eqn:Eph.
      * destruct Hwell as (_ & _ & Hns). destruct (poll_read p (tk_buf (nt_tasks N d)) (tk_inbox (nt_tasks N d))) as [[[out|] b] cs] eqn:Ep.
        -- assert (Hec : event_conn (first_event d out u a) = d) by (destruct out; reflexivity).
           eapply (Hone _ _ (put_task d (Mk_task (goes_on_reading (bn_tasks n d) out) b cs) (bn_tasks n))); [reflexivity| | | | | | |]; rewrite ?Hec, ?put_same; try reflexivity.
           ++ destruct out; discriminate.
           ++ cbn [bstep]. rewrite Hbusy, Ht, Eph, Ep. reflexivity.
           ++ intros c Hcd. rewrite !put_other by exact Hcd. apply Ht.
           ++ cbn [tk_phase]. intros Hph. destruct (step cfg (nt_world N) (first_event d out u a)) as [w o] eqn:Es. apply not_served_unserved.
              eapply first_event_over; [exact Hns| |exact Es]. intros k ->. cbn in Hph. rewrite Ht, Eph in Hph. discriminate.
        -- eapply Hbuf; [reflexivity|cbn [bstep]; rewrite Hbusy, Ht, Eph, Ep; reflexivity|reflexivity|].
           cbn. intros c. unfold put_task. destruct (Nat.eqb c d); [reflexivity|apply Ht].
      * destruct Hwell as (_ & Hns). destruct (poll_read p (tk_buf (nt_tasks N d)) (tk_inbox (nt_tasks N d))) as [[[out|] b] cs] eqn:Ep.
        -- assert (Hec : event_conn (next_event d out) = d) by (destruct out; reflexivity).
           eapply (Hone _ _ (put_task d (Mk_task (goes_on_reading (bn_tasks n d) out) b cs) (bn_tasks n))); [reflexivity| | | | | | |]; rewrite ?Hec, ?put_same; try reflexivity.
           ++ destruct out; discriminate.
           ++ cbn [bstep]. rewrite Hbusy, Ht, Eph, Ep. reflexivity.
           ++ intros c Hcd. rewrite !put_other by exact Hcd. apply Ht.
           ++ cbn [tk_phase]. intros Hph. destruct (step cfg (nt_world N) (next_event d out)) as [w o] eqn:Es.
              eapply served_after; [exact Hwf|exact Hns| |exact Es]. intros k ->. cbn in Hph. rewrite Ht, Eph in Hph. discriminate.
        -- eapply Hbuf; [reflexivity|cbn [bstep]; rewrite Hbusy, Ht, Eph, Ep; reflexivity|reflexivity|].
           cbn. intros c. unfold put_task. destruct (Nat.eqb c d); [reflexivity|apply Ht].
      * eapply Hno; [reflexivity| |]; reflexivity.
    + destruct (tk_phase (nt_tasks N d)) eqn:Eph; try (eapply Hno; [reflexivity| |]; reflexivity).
      eapply (Hone _ _ (bn_tasks n)); [reflexivity| | | | | | |]; cbn [event_conn]; try reflexivity.
      * discriminate.
      * cbn [bstep]. rewrite Ht, Eph. reflexivity.
      * intros c _. apply Ht.
      * rewrite Ht. reflexivity.
      * rewrite Ht. reflexivity.
      * rewrite Ht, Eph. discriminate.
    + pose proof (Hwell d) as Hw. unfold well in Hw. destruct (tk_phase (nt_tasks N d)) eqn:Eph; try (eapply Hno; [reflexivity| |]; reflexivity).
      destruct Hw as (_ & Hns).
      eapply (Hone _ _ (put_task d (set_phase Over (bn_tasks n d)) (bn_tasks n))); [reflexivity| | | | | | |]; cbn [event_conn]; rewrite ?put_same; try reflexivity.
      * discriminate.
      * cbn [bstep]. rewrite Ht, Eph. reflexivity.
      * intros c Hcd. rewrite put_other by exact Hcd. apply Ht.
      * rewrite Ht. reflexivity.
      * rewrite Ht. reflexivity.
      * intros _. destruct (step cfg (nt_world N) (EEnd d)) as [w o] eqn:Es. apply (served_after cfg (nt_world N) d RClosed w o Hwf Hns); [discriminate|exact Es].
Qed.
