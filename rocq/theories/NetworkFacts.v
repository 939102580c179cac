(** Proofs about Network.v. *)
From Verif Require Import Base Utf8 Codec Maps SpecCodec Packets SpecPackets Frame Tac ParseFacts FrameFacts Storage Broker Session Server
  SpecServer WorldFacts ServerFacts SessionFacts HandlerFacts SpecOutput SpecWire WireAccept Network SpecNetwork.

(** ** Reading *)
Lemma poll_step p buf inbox :
  poll_read p buf inbox =
  match parse_packet p buf with
  | Ok (Some k, r) => (Some (RPacket k), r, inbox)
  | Ok (None, _) =>
      match inbox with
      | [] => (None, buf, [])
      | [] :: cs => (Some (server_eof buf), buf, cs)
      | c :: cs => poll_read p (buf ++ c) cs
      end
  | Err e => (Some (RError e), buf, inbox)
  | Panic => (Some RPanic, buf, inbox)
  end.
Proof. destruct inbox; reflexivity. Qed.

Lemma reads_to_trans p a as_ ks b bs ks' c cs :
  reads_to p a as_ ks b bs -> reads_to p b bs ks' c cs -> reads_to p a as_ (ks ++ ks') c cs.
Proof. induction 1; intros; cbn [app]; [assumption|eapply rt_more; eauto|eapply rt_packet; eauto]. Qed.
Lemma reads_to_app p a as_ ks b bs more : reads_to p a as_ ks b bs -> reads_to p a (as_ ++ more) ks b (bs ++ more).
Proof. induction 1; cbn [app]; [constructor|eapply rt_more; eauto|eapply rt_packet; eauto]. Qed.
Lemma reads_to_reads p a as_ ks b bs : reads_to p a as_ ks b bs -> forall ks' out,
  server_reads p b bs ks' out -> server_reads p a as_ (ks ++ ks') out.
Proof.
  induction 1 as [| a x as_ r ks b bs E Hx _ IH | a as_ k r ks b bs E _ IH]; intros ks' out H; cbn [app]; auto.
  - specialize (IH _ _ H). assert (server_read p a (x :: as_) = server_read p (a ++ x) as_).
    { rewrite (server_read_step p a), E. destruct x; [congruence|]. reflexivity. }
    inversion IH; subst; [eapply sreads_end; [rewrite H0; eassumption|assumption]|eapply sreads_packet; [rewrite H0; eassumption|assumption]].
  - eapply sreads_packet; [|apply IH; exact H]. rewrite server_read_step, E. reflexivity.
Qed.

Lemma poll_reads p inbox : forall buf r b cs, poll_read p buf inbox = (r, b, cs) ->
  match r with
  | None => reads_to p buf inbox [] b [] /\ cs = [] /\ exists x, parse_packet p b = Ok (None, x)
  | Some (RPacket k) => reads_to p buf inbox [k] b cs
  | Some out => exists cs', reads_to p buf inbox [] b cs' /\ (forall more, server_read p b (cs' ++ more) = (out, b, cs ++ more))
  end.
Proof.
  induction inbox as [|c inbox IH]; intros buf r b cs H; rewrite poll_step in H; destruct (parse_packet p buf) as [[[k|] x]|e|] eqn:E.
  - inv H. eapply rt_packet; [exact E|constructor].
  - inv H. split; [constructor|]. split; [reflexivity|eauto].
  - inv H. exists []. split; [constructor|]. intros more. rewrite server_read_step, E. reflexivity.
  - inv H. exists []. split; [constructor|]. intros more. rewrite server_read_step, E. reflexivity.
  - inv H. eapply rt_packet; [exact E|constructor].
  - destruct c as [|y c].
    + inv H. assert (Hs : forall k, server_eof b <> RPacket k) by (destruct b; discriminate).
      destruct (server_eof b) eqn:Ee; [exfalso; eapply Hs; reflexivity| | |];
        exists ([] :: cs); (split; [constructor|]); intros more; cbn [app]; rewrite server_read_step, E, Ee; reflexivity.
    + apply IH in H. destruct r as [[k| | |]|].
      * eapply rt_more; [exact E|discriminate|exact H].
      * destruct H as (cs' & A & B). exists cs'. split; [|exact B]. eapply rt_more; [exact E|discriminate|exact A].
      * destruct H as (cs' & A & B). exists cs'. split; [|exact B]. eapply rt_more; [exact E|discriminate|exact A].
      * destruct H as (cs' & A & B). exists cs'. split; [|exact B]. eapply rt_more; [exact E|discriminate|exact A].
      * destruct H as (A & B & C). split; [|auto]. eapply rt_more; [exact E|discriminate|exact A].
  - inv H. exists (c :: inbox). split; [constructor|]. intros more. cbn [app]. rewrite server_read_step, E. reflexivity.
  - inv H. exists (c :: inbox). split; [constructor|]. intros more. cbn [app]. rewrite server_read_step, E. reflexivity.
Qed.

(** ** The broker *)
Lemma step_conns_other cfg w e w' o c : step cfg w e = (w', o) -> event_of c e = false -> e <> ERestart ->
  aget Nat.eqb c (w_conns w') = aget Nat.eqb c (w_conns w).
Proof.
  intros H Hev Hre. apply step_inv in H.
  assert (Hdel : forall d, event_of c (EEnd d) = false -> aget Nat.eqb c (adel Nat.eqb d (w_conns w)) = aget Nat.eqb c (w_conns w)).
  { cbn. intros d Hd. rewrite aget_del_other; auto using nateqb_spec. intros ->. rewrite Nat.eqb_refl in Hd. discriminate. }
  destruct H as [(-> & _)|[(d&k&_&_&_&->&_)|[(d&k&u&a&->&Hn&H)|[(d&i&s&x&->&_&->&_)|[(d&i&s&k&->&Hs&Hk&H)|[(d&i&s&f&->&Hs&H)|[(d&i&s&->&_&->&_)|[(d&i&s&->&_&->&_)|(->&->&_)]]]]]]]];
    unfold not_served; auto.
  - unfold connect_step in H. destruct (negb (authenticated cfg k)); [inv H; auto|].
    destruct (start_session u a k w) as [[ack r] w1] eqn:Es.
    assert (Hc : w_conns w1 = w_conns w).
    { clear H. unfold start_session in Es.
      destruct (lookup_session k w) as [[[[? ?] ?] ?] w2] eqn:El. apply lookup_session_spec in El.
      destruct El as (_ & Hc2 & _).
      assert (He : w_conns (snd (enter_session k w2)) = w_conns w2).
      { unfold enter_session. destruct (aget bytes_eqb _ _); [|reflexivity]. destruct (nth_error _ _); reflexivity. }
      destruct (enter_session k w2) as [i w3]. simpl in He. destruct (nth_error (w_heap w3) i); [|inv Es; congruence].
      destruct (begin u b s) as [? ?]. destruct a; inv Es; simpl; congruence. }
    destruct r as [r|]; [|inv H; congruence].
    destruct (nth_error (w_heap w1) (sr_session r)); [|inv H; congruence].
    destruct (restore_subscriptions (sr_subs r) s (w_broker w1)). inv H. simpl.
    rewrite aget_put_other; [congruence|apply nateqb_spec|]. intros ->. cbn in Hev. rewrite Nat.eqb_refl in Hev. discriminate.
  - unfold disconnect_step. rewrite end_conns. apply Hdel, Hev.
  - unfold packet_step in H. destruct (process_incoming (sv_manager cfg) k s (w_broker w)) as [[r s1] b1] eqn:E.
    destruct r as [x| |]; inv H.
    + destruct (is_subscription_change k); destruct (inflight_completed k); reflexivity.
    + rewrite end_conns. apply Hdel, Hev.
    + apply Hdel, Hev.
  - unfold out_step in H. destruct (process_outgoing f s (w_broker w)) as [[r s1]|] eqn:E; [|inv H; auto].
    destruct r as [q| |]; inv H.
    + destruct (pb_packet_id q); [destruct (pb_qos q)|]; reflexivity.
    + apply Hdel, Hev.
    + apply Hdel, Hev.
  - rewrite end_conns. apply Hdel, Hev.
  - apply Hdel, Hev.
  - congruence.
Qed.

Lemma nrun_run cfg p h : forall n,
  nt_world (fst (nrun cfg p h n)) = fst (run cfg (nhistory cfg p h n) (nt_world n)) /\
  snd (nrun cfg p h n) = snd (run cfg (nhistory cfg p h n) (nt_world n)).
Proof.
  induction h as [|ev h IH]; intros n; cbn [nrun nhistory]; [auto|].
  rewrite run_app. cbn [fst snd]. destruct (nstep cfg p n ev) as [n' o] eqn:E. specialize (IH n').
  assert (Hn : nt_world n' = fst (run cfg (fst (net_happens p n ev)) (nt_world n)) /\ o = snd (run cfg (fst (net_happens p n ev)) (nt_world n))).
  { unfold nstep in E. destruct (net_happens p n ev) as [es ts]. cbn [fst]. destruct (run cfg es (nt_world n)). inv E. auto. }
  destruct Hn as [Hn ->]. destruct (nrun cfg p h n') as [n2 os]. cbn [fst snd] in *. rewrite <- Hn. destruct IH as [-> ->]. auto.
Qed.
Lemma nrun_app cfg p a : forall b n, nrun cfg p (a ++ b) n =
  (fst (nrun cfg p b (fst (nrun cfg p a n))), snd (nrun cfg p a n) ++ snd (nrun cfg p b (fst (nrun cfg p a n)))).
Proof.
  induction a as [|e a IH]; intros b n; cbn [app nrun].
  - cbn [fst snd app]. destruct (nrun cfg p b n). reflexivity.
  - destruct (nstep cfg p n e) as [n1 o]. rewrite IH. destruct (nrun cfg p a n1) as [n2 os]. cbn [fst snd]. rewrite app_assoc. reflexivity.
Qed.
Lemma nhistory_app cfg p a : forall b n, nhistory cfg p (a ++ b) n = nhistory cfg p a n ++ nhistory cfg p b (fst (nrun cfg p a n)).
Proof.
  induction a as [|e a IH]; intros b n; cbn [app nhistory nrun]; [reflexivity|].
  rewrite IH, <- app_assoc. destruct (nstep cfg p n e) as [n1 o]. cbn [fst]. destruct (nrun cfg p a n1). reflexivity.
Qed.
Lemma arrived_app c a b : arrived c (a ++ b) = arrived c a ++ arrived c b.
Proof. induction a as [|[d bs|d u x|d f|d|] a IH]; cbn; try exact IH; [reflexivity|]. destruct (Nat.eqb d c); cbn; rewrite IH; reflexivity. Qed.
Lemma handled_app c a b : handled c (a ++ b) = handled c a ++ handled c b.
Proof.
  induction a as [|[d [k|] u x|d k|d f|d|d|] a IH]; cbn; try exact IH; [reflexivity| |];
    destruct (Nat.eqb d c); cbn; rewrite IH; reflexivity.
Qed.

(** ** The tasks *)
Definition well (p : profile) (n : network) (c : nat) (arr : list bytes) (hd : list packet) : Prop :=
  let t := nt_tasks n c in
  match tk_phase t with
  | Waiting => reads_to p [] arr [] (tk_buf t) (tk_inbox t) /\ hd = [] /\ not_served (nt_world n) c
  | Serving => reads_to p [] arr hd (tk_buf t) (tk_inbox t) /\ ~ not_served (nt_world n) c
  | Over => (exists b cs, reads_to p [] arr hd b cs) /\ not_served (nt_world n) c
  end.

Lemma is_served_iff w c : is_served w c = true <-> ~ not_served w c.
Proof. unfold is_served, not_served. destruct (aget Nat.eqb c (w_conns w)); cbn; split; congruence. Qed.
Lemma put_same c t ts : put_task c t ts c = t.
Proof. unfold put_task. rewrite Nat.eqb_refl. reflexivity. Qed.
Lemma put_other c d t ts : d <> c -> put_task c t ts d = ts d.
Proof. intros H. unfold put_task. destruct (Nat.eqb_spec d c); congruence. Qed.

(** What an event of connection [c] leaves. *)
Lemma well_event cfg p n c e ts w o arr hd :
  step cfg (nt_world n) e = (w, o) -> event_of c e = true ->
  (exists b cs, reads_to p [] arr hd b cs /\ (is_served w c = true -> b = tk_buf (ts c) /\ cs = tk_inbox (ts c))) ->
  well p (Mk_network w (net_phase w e ts)) c arr hd.
Proof.
  intros H He (b & cs & Hr & Hb). unfold well. cbn [nt_tasks nt_world].
  assert (Ht : net_phase w e ts c = Mk_task (if is_served w c then Serving else Over) (tk_buf (ts c)) (tk_inbox (ts c))).
  { destruct e as [d k u a|d k|d f|d|d|]; cbn in He; try discriminate; apply Nat.eqb_eq in He; subst d; cbn; apply put_same. }
  rewrite Ht. cbn. destruct (is_served w c) eqn:E.
  - destruct (Hb eq_refl) as [-> ->]. split; [exact Hr|]. apply is_served_iff, E.
  - split; [eauto|]. unfold is_served, not_served in *. destruct (aget Nat.eqb c (w_conns w)); [discriminate|reflexivity].
Qed.
Lemma well_other cfg p n c e ts w o arr hd :
  step cfg (nt_world n) e = (w, o) -> event_of c e = false -> e <> ERestart -> ts c = nt_tasks n c ->
  well p n c arr hd -> well p (Mk_network w (net_phase w e ts)) c arr hd.
Proof.
  intros H He Hre Ht. unfold well. cbn [nt_tasks nt_world]. unfold not_served.
  rewrite (step_conns_other cfg _ e w o c H He Hre).
  replace (net_phase w e ts c) with (nt_tasks n c); [auto|]. rewrite <- Ht.
  destruct e as [d k u a|d k|d f|d|d|]; try congruence; cbn in He; cbn; unfold put_task; rewrite Nat.eqb_sym, He; reflexivity.
Qed.

Lemma wf_served w c : wf w -> ~ not_served w c -> exists i s, serves w c i s.
Proof.
  intros [_ Hwf] Hs. unfold not_served in Hs. destruct (aget Nat.eqb c (w_conns w)) as [i|] eqn:Hc; [|congruence].
  destruct (nth_error (w_heap w) i) as [s|] eqn:Hi; [exists i, s; split; auto|].
  apply nth_error_None in Hi. apply Hwf in Hc. lia.
Qed.
Lemma next_event_over cfg c out w w' o : wf w -> ~ not_served w c -> (forall k, out <> RPacket k) ->
  step cfg w (next_event c out) = (w', o) -> not_served w' c.
Proof.
  intros Hwf Hs Hk H. destruct (wf_served w c Hwf Hs) as (i & s & Hi & Hx).
  assert (Hd : not_served (set_conns (adel Nat.eqb c (w_conns w)) w) c) by (apply aget_del_same, nateqb_spec).
  destruct out as [k| | |]; [exfalso; eapply Hk; reflexivity| | |]; cbn [next_event step] in H; rewrite ?Hi, ?Hx in H; inv H; auto.
  - unfold not_served. rewrite end_conns. exact Hd.
  - unfold not_served. rewrite end_conns. exact Hd.
Qed.
Lemma first_event_over cfg c out u a w w' o : not_served w c -> (forall k, out <> RPacket k) ->
  step cfg w (first_event c out u a) = (w', o) -> not_served w' c.
Proof.
  intros Hs Hk H. pose proof Hs as Hs'. unfold not_served in Hs'.
  destruct out as [k| | |]; [exfalso; eapply Hk; reflexivity| | |]; cbn [first_event step] in H; rewrite ?Hs' in H; cbn [is_some] in H; inv H; auto.
Qed.
Lemma run_one cfg e w : run cfg [e] w = step cfg w e.
Proof. cbn. destruct (step cfg w e). rewrite app_nil_r. reflexivity. Qed.
Lemma not_served_unserved w c : not_served w c -> is_served w c = false.
Proof. unfold is_served, not_served. intros ->. reflexivity. Qed.
Lemma event_of_next c d out : event_of c (next_event d out) = Nat.eqb d c.
Proof. destruct out; reflexivity. Qed.
Lemma event_of_first c d out u a : event_of c (first_event d out u a) = Nat.eqb d c.
Proof. destruct out; reflexivity. Qed.
Lemma handled_next c d out : handled c [next_event d out] = match out with RPacket k => if Nat.eqb d c then [k] else [] | _ => [] end.
Proof. destruct out; cbn; try destruct (Nat.eqb d c); reflexivity. Qed.
Lemma handled_first c d out u a : handled c [first_event d out u a] = match out with RPacket k => if Nat.eqb d c then [k] else [] | _ => [] end.
Proof. destruct out; cbn; try destruct (Nat.eqb d c); reflexivity. Qed.

(** What a task reads leads on from what it has read. *)
Lemma poll_on p arr hd buf inbox out b cs : reads_to p [] arr hd buf inbox -> poll_read p buf inbox = (Some out, b, cs) ->
  exists b' cs', reads_to p [] arr (hd ++ match out with RPacket k => [k] | _ => [] end) b' cs' /\ (forall k, out = RPacket k -> b' = b /\ cs' = cs).
Proof.
  intros Hr H. apply poll_reads in H. destruct out as [k| | |].
  - exists b, cs. split; [|auto]. eapply reads_to_trans; eassumption.
  - destruct H as (cs' & H & _). exists b, cs'. split; [|discriminate]. eapply reads_to_trans; eassumption.
  - destruct H as (cs' & H & _). exists b, cs'. split; [|discriminate]. eapply reads_to_trans; eassumption.
  - destruct H as (cs' & H & _). exists b, cs'. split; [|discriminate]. eapply reads_to_trans; eassumption.
Qed.

Lemma well_step cfg p n ev c arr hd : wf (nt_world n) -> well p n c arr hd ->
  well p (fst (nstep cfg p n ev)) c (arr ++ arrived c [ev]) (hd ++ handled c (fst (net_happens p n ev))).
Proof.
  intros Hwf Hw. unfold nstep. destruct ev as [d bs|d u a|d f|d|].
  - cbn [net_happens fst run arrived handled]. rewrite app_nil_r. destruct (Nat.eqb_spec d c) as [->|Hd].
    + unfold well in *. cbn [nt_tasks nt_world]. rewrite put_same. cbn [tk_phase tk_buf tk_inbox].
      destruct (tk_phase (nt_tasks n c)).
      * destruct Hw as (A & B & C). split; [|auto]. apply reads_to_app, A.
      * destruct Hw as (A & B). split; [|auto]. apply reads_to_app, A.
      * destruct Hw as ((b & cs & A) & B). split; [|auto]. exists b, (cs ++ [bs]). apply reads_to_app, A.
    + rewrite app_nil_r. unfold well in *. cbn [nt_tasks nt_world]. rewrite put_other by congruence. exact Hw.
  - cbn [arrived]. rewrite app_nil_r. unfold net_happens.
    destruct (tk_phase (nt_tasks n d)) eqn:Eph.
    + destruct (poll_read p (tk_buf (nt_tasks n d)) (tk_inbox (nt_tasks n d))) as [[[out|] b] cs] eqn:Ep; cbn [fst].
      * rewrite run_one. destruct (step cfg (nt_world n) (first_event d out u a)) as [w o] eqn:Es. cbn [fst].
        rewrite handled_first. destruct (Nat.eqb_spec d c) as [->|Hd].
        -- unfold well in Hw. rewrite Eph in Hw. destruct Hw as (A & -> & C).
           destruct (poll_on _ _ _ _ _ _ _ _ A Ep) as (b' & cs' & D & E). cbn [app] in *.
           eapply well_event; [exact Es|rewrite event_of_first; apply Nat.eqb_refl|].
           exists b', cs'. split; [exact D|]. rewrite put_same. cbn [tk_buf tk_inbox]. intros Hserved.
           destruct out as [k| | |]; [apply (E k eq_refl)| | |];
             rewrite not_served_unserved in Hserved by (eapply first_event_over; [exact C| |exact Es]; discriminate); discriminate.
        -- assert ((match out with RPacket k => [] | _ => [] end : list packet) = []) as -> by (destruct out; reflexivity).
           rewrite app_nil_r. eapply well_other; [exact Es| | | |exact Hw].
           ++ rewrite event_of_first. apply Nat.eqb_neq, Hd.
           ++ destruct out; discriminate.
           ++ apply put_other. congruence.
      * cbn [run fst handled]. rewrite app_nil_r. destruct (Nat.eq_dec d c) as [->|Hd].
        -- unfold well in *. cbn [nt_tasks nt_world]. rewrite put_same. cbn [tk_phase tk_buf tk_inbox]. rewrite Eph in Hw.
           destruct Hw as (A & B). split; [|exact B]. apply poll_reads in Ep. destruct Ep as (C & -> & _).
           change (@nil packet) with (@nil packet ++ []). eapply reads_to_trans; eassumption.
        -- unfold well in *. cbn [nt_tasks nt_world]. rewrite put_other by congruence. exact Hw.
    + destruct (poll_read p (tk_buf (nt_tasks n d)) (tk_inbox (nt_tasks n d))) as [[[out|] b] cs] eqn:Ep; cbn [fst].
      * rewrite run_one. destruct (step cfg (nt_world n) (next_event d out)) as [w o] eqn:Es. cbn [fst].
        rewrite handled_next. destruct (Nat.eqb_spec d c) as [->|Hd].
        -- unfold well in Hw. rewrite Eph in Hw. destruct Hw as (A & C).
           destruct (poll_on _ _ _ _ _ _ _ _ A Ep) as (b' & cs' & D & E).
           eapply well_event; [exact Es|rewrite event_of_next; apply Nat.eqb_refl|].
           exists b', cs'. split; [exact D|]. rewrite put_same. cbn [tk_buf tk_inbox]. intros Hserved.
           destruct out as [k| | |]; [apply (E k eq_refl)| | |];
             rewrite not_served_unserved in Hserved by (eapply next_event_over; [exact Hwf|exact C| |exact Es]; discriminate); discriminate.
        -- assert ((match out with RPacket k => [] | _ => [] end : list packet) = []) as -> by (destruct out; reflexivity).
           rewrite app_nil_r. eapply well_other; [exact Es| | | |exact Hw].
           ++ rewrite event_of_next. apply Nat.eqb_neq, Hd.
           ++ destruct out; discriminate.
           ++ apply put_other. congruence.
      * cbn [run fst handled]. rewrite app_nil_r. destruct (Nat.eq_dec d c) as [->|Hd].
        -- unfold well in *. cbn [nt_tasks nt_world]. rewrite put_same. cbn [tk_phase tk_buf tk_inbox]. rewrite Eph in Hw.
           destruct Hw as (A & B). split; [|exact B]. apply poll_reads in Ep. destruct Ep as (C & -> & _).
           rewrite <- (app_nil_r hd). eapply reads_to_trans; eassumption.
        -- unfold well in *. cbn [nt_tasks nt_world]. rewrite put_other by congruence. exact Hw.
    + cbn [run fst handled]. rewrite app_nil_r. destruct n. exact Hw.
  - cbn [arrived net_happens]. rewrite app_nil_r. destruct (tk_phase (nt_tasks n d)) eqn:Eph; cbn [fst handled]; rewrite app_nil_r;
      try (destruct n; exact Hw).
    rewrite run_one. destruct (step cfg (nt_world n) (EOut d f)) as [w o] eqn:Es. cbn [fst]. destruct (Nat.eq_dec d c) as [->|Hd].
    + unfold well in Hw. rewrite Eph in Hw. eapply well_event; [exact Es|apply Nat.eqb_refl|].
      exists (tk_buf (nt_tasks n c)), (tk_inbox (nt_tasks n c)). tauto.
    + eapply well_other; [exact Es|apply Nat.eqb_neq, Hd|discriminate|reflexivity|exact Hw].
  - cbn [arrived net_happens]. rewrite app_nil_r. destruct (tk_phase (nt_tasks n d)) eqn:Eph; cbn [fst handled]; rewrite app_nil_r;
      try (destruct n; exact Hw).
    rewrite run_one. destruct (step cfg (nt_world n) (EEnd d)) as [w o] eqn:Es. cbn [fst]. destruct (Nat.eq_dec d c) as [->|Hd].
    + unfold well in Hw. rewrite Eph in Hw. eapply well_event; [exact Es|apply Nat.eqb_refl|].
      exists (tk_buf (nt_tasks n c)), (tk_inbox (nt_tasks n c)). tauto.
    + eapply well_other; [exact Es|apply Nat.eqb_neq, Hd|discriminate|reflexivity|exact Hw].
  - cbn [arrived net_happens fst handled]. rewrite !app_nil_r. rewrite run_one. cbn [step fst net_phase].
    unfold well in *. cbn [nt_tasks nt_world]. destruct (nt_tasks n c) as [ph b cs]. cbn in Hw |- *.
    destruct ph; [|split; [exists b, cs; tauto|reflexivity]|split; [tauto|reflexivity]].
    destruct Hw as (A & -> & C). destruct b; [destruct cs|]; cbn; (split; [eauto|]); try split; reflexivity.
Qed.

(** ** Histories *)
Lemma net_state_snoc cfg p h ev : net_state cfg p (h ++ [ev]) = fst (nstep cfg p (net_state cfg p h) ev).
Proof. unfold net_state. rewrite nrun_app. cbn [fst nrun]. destruct (nstep cfg p (fst (nrun cfg p h network_new)) ev). reflexivity. Qed.
Lemma net_outputs_snoc cfg p h ev : net_outputs cfg p (h ++ [ev]) = net_outputs cfg p h ++ snd (nstep cfg p (net_state cfg p h) ev).
Proof.
  unfold net_state, net_outputs. rewrite nrun_app. cbn [snd nrun]. destruct (nstep cfg p (fst (nrun cfg p h network_new)) ev).
  cbn [snd]. rewrite app_nil_r. reflexivity.
Qed.
Lemma nhistory_snoc cfg p h ev :
  nhistory cfg p (h ++ [ev]) network_new = nhistory cfg p h network_new ++ fst (net_happens p (net_state cfg p h) ev).
Proof. rewrite nhistory_app. cbn [nhistory]. rewrite app_nil_r. reflexivity. Qed.
Lemma has_handled_snoc cfg p h ev c :
  has_handled cfg p (h ++ [ev]) c = has_handled cfg p h c ++ handled c (fst (net_happens p (net_state cfg p h) ev)).
Proof. unfold has_handled. rewrite nhistory_snoc, handled_app. reflexivity. Qed.
Lemma net_state_run cfg p h : nt_world (net_state cfg p h) = fst (run cfg (nhistory cfg p h network_new) world_new).
Proof. apply (nrun_run cfg p h network_new). Qed.
Lemma net_outputs_run cfg p h : net_outputs cfg p h = snd (run cfg (nhistory cfg p h network_new) world_new).
Proof. apply (nrun_run cfg p h network_new). Qed.
Lemma net_wf cfg p h : wf (nt_world (net_state cfg p h)).
Proof. rewrite net_state_run. apply run_wf, wf_new. Qed.
Lemma well_run cfg p h c : well p (net_state cfg p h) c (arrived c h) (has_handled cfg p h c).
Proof.
  induction h as [|ev h IH] using rev_ind.
  - unfold well. cbn. split; [constructor|]. split; reflexivity.
  - rewrite net_state_snoc, arrived_app, has_handled_snoc. apply well_step; [apply net_wf|exact IH].
Qed.
Lemma run_reads_to cfg p h c : exists b cs, reads_to p [] (arrived c h) (has_handled cfg p h c) b cs.
Proof.
  pose proof (well_run cfg p h c) as H. unfold well in H. destruct (tk_phase _).
  - destruct H as (A & -> & _). eauto.
  - destruct H as (A & _). eauto.
  - destruct H as (A & _). exact A.
Qed.

Lemma server_reads_det p a as_ ks out : server_reads p a as_ ks out -> forall ks' out', server_reads p a as_ ks' out' -> ks = ks' /\ out = out'.
Proof.
  induction 1 as [a as_ out b cs E Hk|a as_ k b cs ks out E H IH]; intros ks' out' H'; inversion H' as [? ? ? ? ? E' Hk'|? ? k' ? ? ? ? E' H'']; subst;
    rewrite E in E'; inversion E'; subst.
  - auto.
  - exfalso. eapply Hk. reflexivity.
  - exfalso. eapply Hk'. reflexivity.
  - destruct (IH _ _ H'') as [-> ->]. auto.
Qed.
(** Reading on to the end gives what a reader of the whole stream gets. *)
Lemma reads_to_rest p a as_ ks b bs : reads_to p a as_ ks b bs -> forall ks' out,
  server_reads p a as_ ks' out -> exists ks2, ks' = ks ++ ks2 /\ server_reads p b bs ks2 out.
Proof.
  induction 1 as [| a x as_ r ks b bs E Hx _ IH | a as_ k r ks b bs E _ IH]; intros ks' out H; cbn [app].
  - eauto.
  - assert (Es : server_read p a (x :: as_) = server_read p (a ++ x) as_).
    { rewrite (server_read_step p a), E. destruct x; [congruence|]. reflexivity. }
    apply IH. inversion H; subst; [eapply sreads_end|eapply sreads_packet]; rewrite Es in *; eassumption.
  - inversion H as [? ? ? ? ? E' Hk'|? ? k' ? ? ? ? E' H'']; subst; rewrite server_read_step, E in E'; inversion E'; subst.
    + exfalso. eapply Hk'. reflexivity.
    + destruct (IH _ _ H'') as (ks2 & -> & H2). eauto.
Qed.

Lemma parse_packet_suffix p buf k r : is_bytes buf -> parse_packet p buf = Ok (Some k, r) -> parse p buf = Ok (k, r) /\ suffix r buf.
Proof.
  intros Hb H. unfold parse_packet in H. destruct (check p buf) as [[]|e|]; [|destruct e; discriminate|discriminate].
  inv_bind H. destruct a as [k' r']. inv H. split; [assumption|]. eapply parse_consumes; [exact Hb|exact Ha].
Qed.
Lemma reads_to_received p a as_ ks b bs : reads_to p a as_ ks b bs -> is_bytes (a ++ concat as_) -> blen (a ++ concat as_) < two64 ->
  Forall received ks.
Proof.
  induction 1 as [| a x as_ r ks b bs E Hx _ IH | a as_ k r ks b bs E _ IH]; intros Hb Hl.
  - constructor.
  - cbn [concat] in *. rewrite app_assoc in *. auto.
  - apply Forall_app in Hb. destruct Hb as [Hb Hc]. destruct (parse_packet_suffix _ _ _ _ Hb E) as [Hp Hs].
    assert (Hle : blen r <= blen a) by (destruct Hs as [pre ->]; rewrite blen_app; lia).
    rewrite blen_app in Hl. constructor.
    + exists p, V5, a, r. split; [exact Hb|]. split; [lia|exact Hp].
    + apply IH; [|rewrite blen_app; lia]. apply Forall_app. split; [eapply suffix_bytes; eassumption|exact Hc].
Qed.
Lemma in_handled_first c k u a es : In (EFirst c (Some k) u a) es -> In k (handled c es).
Proof. intros H. apply in_split in H. destruct H as (x & y & ->). rewrite handled_app. apply in_or_app. right. cbn. rewrite Nat.eqb_refl. left. reflexivity. Qed.
Lemma in_handled_packet c k es : In (EPacket c k) es -> In k (handled c es).
Proof. intros H. apply in_split in H. destruct H as (x & y & ->). rewrite handled_app. apply in_or_app. right. cbn. rewrite Nat.eqb_refl. left. reflexivity. Qed.
Lemma first_polled cfg p h c k u a : In (EFirst c k u a) (nhistory cfg p h network_new) -> In (NPoll c u a) h.
Proof.
  induction h as [|ev h IH] using rev_ind; [intros []|]. rewrite nhistory_snoc. intros H. apply in_or_app. apply in_app_or in H.
  destruct H as [H|H]; [auto|]. right. set (n := net_state cfg p h) in *. destruct ev as [d bs|d v x|d f|d|]; cbn in H.
  - destruct H.
  - destruct (tk_phase (nt_tasks n d)); [| |destruct H].
    + destruct (poll_read p _ _) as [[[out|] b] cs]; [|destruct H]. destruct H as [H|[]].
      destruct out; cbn in H; inversion H; subst; left; reflexivity.
    + destruct (poll_read p _ _) as [[[out|] b] cs]; [|destruct H]. destruct H as [H|[]]. destruct out; discriminate.
  - destruct (tk_phase _); cbn in H; intuition discriminate.
  - destruct (tk_phase _); cbn in H; intuition discriminate.
  - intuition discriminate.
Qed.
Lemma nhistory_from_network cfg p h : genuine h -> Forall from_network (nhistory cfg p h network_new).
Proof.
  intros [Hb Hu].
  assert (Hr : forall c k, In k (has_handled cfg p h c) -> received k).
  { intros c k Hk. destruct (Hb c) as [B L]. destruct (run_reads_to cfg p h c) as (b & cs & H).
    apply (reads_to_received p [] _ _ _ _ H) in B; [|exact L]. rewrite Forall_forall in B. auto. }
  apply Forall_forall. intros e He. destruct e as [c [k|] u a|c k|c f|c|c|]; cbn; auto.
  - split; [eapply Hr, in_handled_first, He|]. eapply Hu. eapply first_polled, He.
  - eapply Hr, in_handled_packet, He.
Qed.

(** ** Packets are spelled by bytes *)
Lemma lenient_nonempty v k bs : lenient v k bs -> bs <> [].
Proof.
  assert (Hl : forall h m body, lax_frame h m body bs -> bs <> []) by (intros h m body (n & -> & _); discriminate).
  destruct k; cbn [lenient].
  - intros (h & m & ? & ? & ? & ? & ? & _ & H & _). eauto.
  - intros (_ & h & m & ? & ? & _ & H & _). eauto.
  - intros (m & ? & ? & ? & ? & ? & ? & H & _). eauto.
  - intros (h & m & ? & _ & H & _). eauto.
  - intros (h & m & ? & _ & H & _). eauto.
  - intros (h & m & ? & _ & H & _). eauto.
  - intros (h & m & ? & _ & H & _). eauto.
  - intros (h & m & ? & ? & ? & _ & H & _). eauto.
  - intros (_ & h & m & ? & ? & ? & _ & H & _). eauto.
  - intros (h & m & ? & ? & ? & _ & H & _). eauto.
  - intros (_ & h & m & ? & ? & ? & _ & H & _). eauto.
  - intros (h & _ & ->). discriminate.
  - intros (h & _ & ->). discriminate.
  - intros (m & ? & H & _). eauto.
  - intros (m & ? & H & _). eauto.
Qed.
Lemma parse_packet_spelled p buf k r : is_bytes buf -> blen buf < two64 -> parse_packet p buf = Ok (Some k, r) ->
  exists x, buf = x ++ r /\ lenient V5 k x /\ x <> [].
Proof.
  intros Hb Hl H. destruct (parse_packet_suffix _ _ _ _ Hb H) as [Hp _]. destruct (packet_accept p V5 buf k r Hb Hl Hp) as (x & E & Hx).
  eauto using lenient_nonempty.
Qed.
Lemma reads_to_spelled p a as_ ks b bs : reads_to p a as_ ks b bs -> is_bytes (a ++ concat as_) -> blen (a ++ concat as_) < two64 ->
  exists xs, a ++ concat as_ = concat xs ++ b ++ concat bs /\ Forall2 (lenient V5) ks xs.
Proof.
  induction 1 as [| a x as_ r ks b bs E Hx _ IH | a as_ k r ks b bs E _ IH]; intros Hb Hl.
  - exists []. split; [reflexivity|constructor].
  - cbn [concat] in *. rewrite app_assoc in *. auto.
  - apply Forall_app in Hb. destruct Hb as [Hb Hc]. rewrite blen_app in Hl.
    destruct (parse_packet_spelled _ _ _ _ Hb ltac:(lia) E) as (x & -> & Hx & _). apply Forall_app in Hb. destruct Hb as [_ Hb]. rewrite blen_app in Hl.
    destruct IH as (xs & Ex & Hxs); [apply Forall_app; auto|rewrite blen_app; lia|].
    exists (x :: xs). split; [|constructor; assumption]. cbn [concat]. rewrite <- !app_assoc, Ex. reflexivity.
Qed.
Lemma server_reads_total p : forall m buf cs, (length (buf ++ concat cs) <= m)%nat -> is_bytes (buf ++ concat cs) -> blen (buf ++ concat cs) < two64 ->
  exists ks out, server_reads p buf cs ks out.
Proof.
  induction m as [m IHm] using (well_founded_induction lt_wf). intros buf cs. revert buf. induction cs as [|c cs IH]; intros buf Hm Hb Hl.
  - destruct (parse_packet p buf) as [[[k|] x]|e|] eqn:E.
    + cbn [concat] in *. rewrite app_nil_r in *. destruct (parse_packet_spelled _ _ _ _ Hb Hl E) as (y & -> & _ & Hy).
      destruct y as [|b0 y]; [congruence|]. apply Forall_app in Hb. rewrite blen_app in Hl. cbn [app length] in Hm. rewrite app_length in Hm.
      destruct (IHm (length x) ltac:(lia) x []) as (ks & out & H); cbn [concat]; rewrite ?app_nil_r; [lia|tauto|lia|].
      exists (k :: ks), out. eapply sreads_packet; [rewrite server_read_step, E; reflexivity|exact H].
    + exists [], (server_eof buf). eapply sreads_end; [rewrite server_read_step, E; reflexivity|destruct buf; discriminate].
    + eexists [], _. eapply sreads_end; [rewrite server_read_step, E; reflexivity|discriminate].
    + eexists [], _. eapply sreads_end; [rewrite server_read_step, E; reflexivity|discriminate].
  - destruct (parse_packet p buf) as [[[k|] x]|e|] eqn:E.
    + pose proof Hb as Hb'. apply Forall_app in Hb'. destruct Hb' as [Hb1 Hb2]. pose proof Hl as Hl'. rewrite blen_app in Hl'.
      destruct (parse_packet_spelled _ _ _ _ Hb1 ltac:(lia) E) as (y & -> & _ & Hy).
      destruct y as [|b0 y]; [congruence|]. apply Forall_app in Hb1. rewrite blen_app in Hl'. rewrite !app_length in Hm. cbn [length] in Hm.
      destruct (IHm (length (x ++ concat (c :: cs))) ltac:(rewrite app_length; lia) x (c :: cs)) as (ks & out & H);
        [lia|apply Forall_app; tauto|rewrite blen_app; lia|].
      exists (k :: ks), out. eapply sreads_packet; [rewrite server_read_step, E; reflexivity|exact H].
    + destruct c as [|b0 c].
      * exists [], (server_eof buf). eapply sreads_end; [rewrite server_read_step, E; reflexivity|destruct buf; discriminate].
      * cbn [concat] in *. destruct (IH (buf ++ b0 :: c)) as (ks & out & H); [rewrite <- app_assoc; assumption..|].
        assert (Es : server_read p buf ((b0 :: c) :: cs) = server_read p (buf ++ b0 :: c) cs) by (rewrite (server_read_step p buf), E; reflexivity).
        exists ks, out. inversion H; subst; [eapply sreads_end|eapply sreads_packet]; rewrite ?Es; eassumption.
    + eexists [], _. eapply sreads_end; [rewrite server_read_step, E; reflexivity|discriminate].
    + eexists [], _. eapply sreads_end; [rewrite server_read_step, E; reflexivity|discriminate].
Qed.
Lemma server_reads_reads_to p a as_ ks out : server_reads p a as_ ks out -> exists b bs, reads_to p a as_ ks b bs.
Proof.
  assert (H1 : forall as_ a k b cs, server_read p a as_ = (RPacket k, b, cs) -> reads_to p a as_ [k] b cs).
  { clear. induction as_ as [|c as_ IH]; intros a k b cs H; rewrite server_read_step in H; destruct (parse_packet p a) as [[[k'|] x]|e|] eqn:E; try discriminate.
    - inv H. eapply rt_packet; [exact E|constructor].
    - destruct a; discriminate.
    - inv H. eapply rt_packet; [exact E|constructor].
    - destruct c as [|y c]; [destruct a; discriminate|]. eapply rt_more; [exact E|discriminate|]. apply IH, H. }
  induction 1 as [a as_ out b cs E Hk|a as_ k b cs ks out E H (b' & bs & IH)].
  - exists a, as_. constructor.
  - exists b', bs. change (k :: ks) with ([k] ++ ks). eapply reads_to_trans; [apply H1, E|exact IH].
Qed.
