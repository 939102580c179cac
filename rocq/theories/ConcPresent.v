(** What the CONNACK says about an earlier session, while handlers interleave. *)
From Verif Require Import Base Utf8 Codec SpecCodec Tac CodecFacts Maps Topic SpecTopic TopicFacts Property PacketProps Packets TopicTree TreeFacts Storage SpecStorage StorageFacts
  Broker Auth Session SessionFacts Server SpecServer ServerFacts HandlerFacts OutputFacts Conc ConcFacts ConcLocks ConcRoute SpecConc ConcOwn ConcDeliver ConcProv SpecDurable ConcStore SpecLives ConcLives SpecUnsub ConcUnsub.

Lemma forget_came {st0} cfg tr x d id : mruns cfg (conf_on st0) tr x -> In (IStep d (OForget id)) tr -> came d id tr.
Proof.
  intros Hr Hin. apply in_split in Hin. destruct Hin as (a & b & ->). apply mruns_app in Hr. destruct Hr as (y & Hy & Hyx).
  inversion Hyx as [|? m x1 ? ? ? Hm _]; subst. apply mstep_inv in Hm.
  destruct Hm as [(e & -> & E & _)|[(c & -> & E & _)|(c & k & o & k1 & -> & E & Ha & Hn & _)]]; try discriminate. injection E as <- <-.
  pose proof (own_runs _ _ _ _ Hy [] own_new) as Hi. destruct (within_next _ _ _ _ _ _ (oi_tasks _ _ Hi _ _ Ha) Hn) as [_ H].
  pose proof (oi_tasks _ _ Hi _ _ Ha) as Hw. destruct k; cbn [Conc.next] in Hn; try discriminate; [destruct (nth_error _ _); [destruct (f _ _)|]; discriminate|]. injection Hn as -> _. cbn [within] in Hw. apply came_app, Hw.
Qed.

Section Present.
  Context (c : nat) (id : bytes).
  (** nobody else touches what is kept under [id] *)
  Definition alone (i : item) : Prop :=
    match i with
    | IStep d (ONew x _ _) | IStep d (OForget x) => d <> c -> x <> id
    | IStep d (OStore o _) => d <> c -> key o <> Some id
    | _ => True
    end.

  (** ** If it says so, there was one *)
  Context (H : Prop) (told : output -> Prop).
  Fixpoint said (k : code) : Prop :=
    match k with
    | Finish => True
    | Emit o k => told o /\ said k
    | Sess _ g => forall s t, said (snd (g s t))
    | Sub _ k => forall n, said (k n)
    | Walk _ k => forall ps, said (k ps)
    | Store _ k => forall r, said (k r)
    | Find _ k => forall r, said (k r)
    | New _ _ k => forall j, said (k j)
    | Send _ _ k | Leave k | Forget _ k | Attach _ k | Detach k | Acquire _ k | Conc.Release _ k => said k
    end.
  (** before the session is made or found *)
  Fixpoint tells (k : code) : Prop :=
    match k with
    | Store o k => (forall x st, o <> SaveSession x st) /\ (forall x, o = LoadSession x -> x = id) /\ forall r, (forall st, r = RSession (Some st) -> H) -> tells (k r)
    | Find x k => x = id /\ forall r, (forall j, r = Some j -> H) -> tells (k r) \/ said (k r)
    | Forget _ k | Acquire _ k => tells k
    | New _ _ k => forall j, said (k j)
    | k => said k
    end.
  Context (HP0 : forall o, (forall a, o <> Sent c (ConnAck a)) -> told o) (HP1 : forall a, ca_session_present a = false -> ca_reason_code a <> Success -> told (Sent c (ConnAck a))).
  Definition says (r : bool) : Prop := forall a, ca_session_present a = r -> told (Sent c (ConnAck a)).
  Lemma said_emits infl k : said k -> said (emits (map (fun x => Sent c (Publish (retry_publish x))) infl) k).
  Proof. intros Hk. induction infl; cbn; [exact Hk|]. split; [apply HP0; discriminate|exact IHinfl]. Qed.
  Lemma said_restore i subs wl infl : said (restore_code c i subs wl infl).
  Proof.
    unfold restore_code. cbv zeta. set (rest := emits _ _). assert (Hr : said rest) by (apply said_emits; exact I). set (wills := match wl with Some x => _ | None => _ end).
    assert (Hw : said wills) by (unfold wills; destruct wl; [intros s t; exact Hr|exact Hr]). destruct subs as [|g fs]; [exact Hw|]. change (said (restore_all i (g :: fs) (Conc.Release (LSession i) wills))).
    induction (g :: fs) as [|h l IH]; cbn [restore_all]; [exact Hw|]. unfold subscribe_one. cbn [said fst snd]. auto.
  Qed.
  Lemma said_begin i u a r subs wl infl : says r -> said (begin_code c i u a r subs wl infl).
  Proof.
    intros Hr. unfold begin_code. cbn [said]. intros s t. assert (Ha : told (Sent c (fst (begin u r s)))) by (unfold begin; destruct (cl_client_id _); apply Hr; reflexivity).
    destruct (begin u r s) as [ack s']. cbn [fst snd] in *. destruct a; [|split; [apply HP0; discriminate|exact I]]. cbn [said]. split; [exact Ha|]. unfold client_id_of. cbn [said fst snd]. intros s1 _ _ s2 _.
    destruct (se_will s2); cbn [said]; [intros _|]; apply said_restore.
  Qed.
  Lemma said_enter k u a r subs wl infl : says r -> said (enter_code k (fun i => begin_code c i u a r subs wl infl)).
  Proof. intros Hr. unfold enter_code. cbv zeta. cbn [said]. intros [i|]; [intros s t; apply said_begin, Hr|intros j; apply said_begin, Hr]. Qed.
  Lemma tells_connect cfg k u a : presented k = id -> says false -> (H -> says true) -> tells (connect_code cfg c k u a).
  Proof.
    intros Hp Hf Ht. unfold connect_code. destruct (negb _); [split; [apply HP1; [reflexivity|discriminate]|split; [apply HP0; discriminate|exact I]]|]. cbv zeta.
    assert (Hg : forall r subs wl infl, says r -> tells (enter_code k (fun i => begin_code c i u a r subs wl infl))).
    { intros r subs wl infl Hr. unfold enter_code. cbv zeta. cbn [tells]. split; [exact Hp|]. intros [i|] _; [right; intros s t; apply said_begin, Hr|left; intros j; apply said_begin, Hr]. }
    match goal with |- tells (Acquire _ ?z) => change (tells z) end. destruct (cf_clean_start _).
    - cbn [tells]. split; [discriminate|]. split; [discriminate|]. intros _ _. split; [discriminate|]. split; [discriminate|]. intros _ _. apply Hg, Hf.
    - cbn [tells]. split; [exact Hp|]. intros [i|] Hi; left; [apply Hg, Ht; eapply Hi; reflexivity|]. cbn [tells]. split; [discriminate|]. split; [intros x E; injection E as <-; exact Hp|].
      intros r Hr. destruct r as [| [st|] | | | | |]; try (apply Hg, Hf). cbn [tells]. split; [discriminate|]. split; [discriminate|]. intros rw _. split; [discriminate|]. split; [discriminate|]. intros ri _. apply Hg, Ht. eapply Hr. reflexivity.
  Qed.
  Lemma said_clean cfg k u a : cf_clean_start (c_flags k) = true -> says false -> said (connect_code cfg c k u a).
  Proof.
    intros Hc Hf. unfold connect_code. destruct (negb _); [split; [apply HP1; [reflexivity|discriminate]|split; [apply HP0; discriminate|exact I]]|]. cbv zeta. rewrite Hc. cbn [said]. intros _ _. apply said_enter, Hf.
  Qed.
  (** a session that is in memory is found *)
  Lemma said_found cfg k u a : presented k = id -> cf_clean_start (c_flags k) = false -> says true ->
    said (connect_code cfg c k u a) \/ exists l K, connect_code cfg c k u a = Acquire l (Find id K) /\ forall j, said (K (Some j)).
  Proof.
    intros Hp Hc Ht. unfold connect_code. destruct (negb _); [left; split; [apply HP1; [reflexivity|discriminate]|split; [apply HP0; discriminate|exact I]]|]. cbv zeta. rewrite Hc. unfold presented in Hp. rewrite Hp.
    right. do 2 eexists. split; [reflexivity|]. intros j. apply said_enter, Ht.
  Qed.
  Definition facts (w : world) : Prop := (forall j, aget bytes_eqb id (w_manager w) = Some j -> H) /\ forall st, mem_load_session id (w_store w) = Some st -> H.
  Definition answering (x : conf) : Prop := forall k, aget Nat.eqb c (cn_tasks x) = Some k -> said k \/ (tells k /\ facts (cn_world x)).
  Lemma facts_other d o w : d <> c -> alone (IStep d o) -> facts w -> facts (apply d o w).
  Proof.
    intros Hd Ha [F1 F2]. destruct o as [o|j' s s'|g q|t ps|p q| |o r|z r|z|z j' s|j'| |l|l]; try (split; [exact F1|exact F2]); cbn [alone] in Ha.
    - split; [exact F1|]. cbn [apply w_store set_store]. intros st E. change (mem_load_session id (snd (mem_step (w_store w) o)) = Some st) in E. rewrite (keyless_sessions id) in E by (apply Ha, Hd). exact (F2 _ E).
    - split; [|exact F2]. cbn. intros j. rewrite aget_adel by apply beqb_spec. destruct (bytes_eqb id z); [discriminate|apply F1].
    - split; [|exact F2]. cbn. intros j. rewrite aget_aput by apply beqb_spec. destruct (bytes_eqb id z) eqn:E; [apply beqb_spec in E; destruct (Ha Hd); auto|apply F1].
  Qed.
  Lemma load_back o m st : (forall x s, o <> SaveSession x s) -> mem_load_session id (snd (mem_step m o)) = Some st -> mem_load_session id m = Some st.
  Proof.
    intros Ho. destruct o as [x st'|x|x| |t [y|]|g| |x y|x|x|x pid y|x pid|x pid|x]; try (intros E; exact E).
    - destruct (Ho x st' eq_refl).
    - cbn. unfold mem_load_session. cbn. rewrite aget_adel by apply beqb_spec. destruct (bytes_eqb id x); [discriminate|auto].
    - cbn [mem_step snd]. unfold mem_remove_inflight. destruct (aget bytes_eqb x (ms_inflight m)); auto.
  Qed.
  Lemma said_next k w o k1 : Conc.next k w = Some (o, k1) -> said k -> said k1 /\ forall q, o = OOut q -> told q.
  Proof.
    intros Hx Hk. destruct k; cbn [Conc.next said] in *; try discriminate; try (injection Hx as <- <-; split; [apply Hk|discriminate]; fail).
    - injection Hx as <- <-. split; [apply Hk|]. intros q E. injection E as <-. apply Hk.
    - destruct (nth_error (w_heap w) i) as [s|]; [|discriminate]. specialize (Hk s (bk_tree (w_broker w))). destruct (f s _) as [s' k']. injection Hx as <- <-. split; [exact Hk|discriminate].
  Qed.
  Lemma tells_next k w o k1 : Conc.next k w = Some (o, k1) -> tells k -> facts w -> (said k1 \/ (tells k1 /\ facts (apply c o w))) /\ forall q, o = OOut q -> told q.
  Proof.
    intros Hx Hk Hf. destruct k; try (destruct (said_next _ _ _ _ Hx Hk); auto; fail); cbn [Conc.next tells] in *.
    - injection Hx as <- <-. split; [|discriminate]. right. destruct Hk as (H1 & H2 & H3). split.
      + apply H3. intros st Er. destruct o0 as [x st'|x|x| |t [y|]|g| |x y|x|x|x pid y|x pid|x pid|x]; cbn in Er; try discriminate. injection Er as Er. rewrite (H2 x eq_refl) in Er. exact (proj2 Hf _ Er).
      + split; [apply Hf|]. cbn [apply w_store set_store]. intros st E. exact (proj2 Hf _ (load_back _ _ _ H1 E)).
    - injection Hx as <- <-. split; [|discriminate]. destruct Hk as [-> Hk]. destruct (Hk _ (proj1 Hf)); auto.
    - injection Hx as <- <-. split; [|discriminate]. right. split; [exact Hk|]. split; [|apply Hf]. cbn. intros j. rewrite aget_adel by apply beqb_spec. destruct (bytes_eqb id _); [discriminate|apply Hf].
    - injection Hx as <- <-. split; [|discriminate]. right. split; [exact Hk|exact Hf].
  Qed.
  Lemma answering_step cfg x m y i : mstep cfg x m = Some (y, i) -> alone i -> (forall e, i = IStart e -> event_conn e <> c) -> answering x -> answering y /\ forall q, i = IStep c (OOut q) -> told q.
  Proof.
    intros Hm Hf Hs Hx0. apply mstep_inv in Hm. unfold answering. destruct Hm as [(e & -> & -> & He & Ha & ->)|[(d & -> & -> & Ha & ->)|(d & k & o & k1 & -> & -> & Ha & Hx & Hy & ->)]]; cbn [cn_tasks cn_world].
    - split; [|discriminate]. intros k. rewrite (aget_aput Nat.eqb Nat.eqb_eq). destruct (Nat.eqb c (event_conn e)) eqn:Ed; [|apply Hx0]. apply Nat.eqb_eq in Ed. destruct (Hs _ eq_refl). auto.
    - split; [|discriminate]. intros k. rewrite (aget_adel Nat.eqb Nat.eqb_eq). destruct (Nat.eqb c d); [discriminate|apply Hx0].
    - rewrite (aget_aput Nat.eqb Nat.eqb_eq). destruct (Nat.eq_dec d c) as [->|Hd].
      + rewrite Nat.eqb_refl. destruct (Hx0 _ Ha) as [Hk|[Hk Hw]].
        * destruct (said_next _ _ _ _ Hx Hk) as [G1 G2]. split; [intros k' E; injection E as <-; auto|]. intros q E. injection E as ->. exact (G2 _ eq_refl).
        * destruct (tells_next _ _ _ _ Hx Hk Hw) as [G1 G2]. split; [intros k' E; injection E as <-; exact G1|]. intros q E. injection E as ->. exact (G2 _ eq_refl).
      + split; [|intros q E; congruence]. destruct (Nat.eqb c d) eqn:Ed; [apply Nat.eqb_eq in Ed; congruence|]. intros k' Hk'. destruct (Hx0 _ Hk') as [Hk|[Hk Hw]]; [auto|]. right. split; [exact Hk|]. apply facts_other; assumption.
  Qed.
  Lemma answering_runs cfg x tr y : mruns cfg x tr y -> Forall alone tr -> (forall e, In (IStart e) tr -> event_conn e <> c) -> answering x -> forall q, In (IStep c (OOut q)) tr -> told q.
  Proof.
    induction 1 as [x|x m x1 i tr x2 Hm Hr IH]; intros Hf Hs Hx q Hi; [destruct Hi|]. inversion Hf as [|? ? F1 F2]; subst. destruct (answering_step _ _ _ _ _ Hm F1) as [G1 G2]; [intros e ->; apply Hs; left; reflexivity|exact Hx|].
    destruct Hi as [->|Hi]; [exact (G2 _ eq_refl)|]. apply IH; auto. intros e He. apply Hs. right. exact He.
  Qed.
  (** ** If there is one in memory, it says so *)
  Definition manages (w : world) : Prop := exists j, aget bytes_eqb id (w_manager w) = Some j.
  Definition finding (x : conf) : Prop := forall k, aget Nat.eqb c (cn_tasks x) = Some k -> said k \/ (manages (cn_world x) /\ exists K, (k = Find id K \/ exists l, k = Acquire l (Find id K)) /\ forall j, said (K (Some j))).
  Lemma manages_other d o w : d <> c -> alone (IStep d o) -> manages w -> manages (apply d o w).
  Proof.
    intros Hd Ha [j Hj]. unfold manages. destruct o as [o|j' s s'|g q|t ps|p q| |o r|z r|z|z j' s|j'| |l|l]; try (exists j; exact Hj); cbn; cbn [alone] in Ha; exists j.
    - rewrite aget_adel by apply beqb_spec. destruct (bytes_eqb id z) eqn:E; [apply beqb_spec in E; destruct (Ha Hd); auto|exact Hj].
    - rewrite aget_aput by apply beqb_spec. destruct (bytes_eqb id z) eqn:E; [apply beqb_spec in E; destruct (Ha Hd); auto|exact Hj].
  Qed.
  Lemma finding_step cfg x m y i : mstep cfg x m = Some (y, i) -> alone i -> (forall e, i = IStart e -> event_conn e <> c) -> finding x -> finding y /\ forall q, i = IStep c (OOut q) -> told q.
  Proof.
    intros Hm Hf Hs Hx0. apply mstep_inv in Hm. unfold finding. destruct Hm as [(e & -> & -> & He & Ha & ->)|[(d & -> & -> & Ha & ->)|(d & k & o & k1 & -> & -> & Ha & Hx & Hy & ->)]]; cbn [cn_tasks cn_world].
    - split; [|discriminate]. intros k. rewrite (aget_aput Nat.eqb Nat.eqb_eq). destruct (Nat.eqb c (event_conn e)) eqn:Ed; [|apply Hx0]. apply Nat.eqb_eq in Ed. destruct (Hs _ eq_refl). auto.
    - split; [|discriminate]. intros k. rewrite (aget_adel Nat.eqb Nat.eqb_eq). destruct (Nat.eqb c d); [discriminate|apply Hx0].
    - rewrite (aget_aput Nat.eqb Nat.eqb_eq). destruct (Nat.eq_dec d c) as [->|Hd].
      + rewrite Nat.eqb_refl. destruct (Hx0 _ Ha) as [Hk|([j Hj] & K & [-> |(l & ->)] & HK)].
        * destruct (said_next _ _ _ _ Hx Hk) as [G1 G2]. split; [intros k' E; injection E as <-; auto|]. intros q E. injection E as ->. exact (G2 _ eq_refl).
        * cbn [Conc.next] in Hx. injection Hx as <- <-. split; [|discriminate]. intros k' E. injection E as <-. left. rewrite Hj. apply HK.
        * cbn [Conc.next] in Hx. injection Hx as <- <-. split; [|discriminate]. intros k' E. injection E as <-. right. split; [exists j; exact Hj|]. exists K. auto.
      + split; [|intros q E; congruence]. destruct (Nat.eqb c d) eqn:Ed; [apply Nat.eqb_eq in Ed; congruence|]. intros k' Hk'. destruct (Hx0 _ Hk') as [Hk|[Hw Hk]]; [auto|]. right. split; [apply manages_other; assumption|exact Hk].
  Qed.
  Lemma finding_runs cfg x tr y : mruns cfg x tr y -> Forall alone tr -> (forall e, In (IStart e) tr -> event_conn e <> c) -> finding x -> forall q, In (IStep c (OOut q)) tr -> told q.
  Proof.
    induction 1 as [x|x m x1 i tr x2 Hm Hr IH]; intros Hf Hs Hx q Hi; [destruct Hi|]. inversion Hf as [|? ? F1 F2]; subst. destruct (finding_step _ _ _ _ _ Hm F1) as [G1 G2]; [intros e ->; apply Hs; left; reflexivity|exact Hx|].
    destruct Hi as [->|Hi]; [exact (G2 _ eq_refl)|]. apply IH; auto. intros e He. apply Hs. right. exact He.
  Qed.
End Present.

(** ** The session of a client that has been let in stays in memory *)
Section Hold.
  Context (c : nat) (id : bytes).
  (** [b]: the identifier leads to a session *)
  Fixpoint hold (b : bool) (k : code) : Prop :=
    match k with
    | Finish => b = true
    | Emit _ k => b = true /\ hold b k
    | Send _ _ k | Leave k | Acquire _ k | Conc.Release _ k | Attach _ k | Detach k => hold b k
    | Sess _ g => forall s n, hold b (snd (g s n))
    | Sub _ k => forall n, hold b (k n)
    | Walk _ k => forall ps, hold b (k ps)
    | Store _ k => forall r, hold b (k r)
    | Find x k => x = id /\ (forall j, hold true (k (Some j))) /\ hold false (k None)
    | Forget _ k => hold false k
    | New x _ k => x = id /\ forall j, hold true (k j)
    end.
  Notation ho := (hold true).
  Lemma ho_sends ps g k : ho k -> ho (sends ps g k).
  Proof. induction ps; simpl; auto. Qed.
  Lemma ho_publish t g k : ho k -> ho (publish t g k).
  Proof.
    intros H. assert (Hr : ho (route t g k)) by (simpl; intros ps; apply ho_sends, H).
    unfold publish. destruct (mg_retain g); [destruct (mg_payload g) as [[|]|]|]; cbn [hold]; auto.
  Qed.
  Lemma ho_id i k : (forall x, ho (k x)) -> ho (client_id_of i k).
  Proof. intros H. unfold client_id_of. cbn [hold fst snd]. auto. Qed.
  Lemma ho_end i : ho (end_code c i).
  Proof.
    unfold end_code. cbn [hold fst snd]. intros s n. destruct (se_will s) as [x|]; [|split; reflexivity].
    apply ho_publish. apply ho_id. intros _. apply ho_id. intros x'. cbn. auto.
  Qed.
  Lemma ho_respond r : ho (respond c r).
  Proof. destruct r; cbn; auto. Qed.
  Lemma ho_one i g k : ho k -> ho (subscribe_one i g k).
  Proof. intros H. unfold subscribe_one. cbn [hold fst snd]. auto. Qed.
  Lemma ho_sub i fs : forall k, (forall rs, ho (k rs)) -> ho (subscribe_all i fs k).
  Proof. induction fs as [|[g o] fs IH]; intros k H; cbn [subscribe_all]; [apply H|]. destruct (validate_subscribe_filter g); [auto|]. apply ho_one. auto. Qed.
  Lemma ho_save i k : ho k -> ho (save_subscriptions i k).
  Proof. intros H. apply ho_id. intros x. cbn [hold fst snd]. auto. Qed.
  Lemma ho_remove i n k : ho k -> ho (remove_inflight i n k).
  Proof. intros H. apply ho_id. intros x. cbn [hold]. auto. Qed.
  Lemma ho_simple i h after : (forall k, ho k -> ho (after k)) -> ho (simple_code c i h after).
  Proof. intros Ha. unfold simple_code. cbn [hold]. intros s n. destruct (h s) as [[r| |] s1]; cbn [snd]; [apply Ha, ho_respond|apply ho_end|split; reflexivity]. Qed.
  Lemma ho_packet cfg i k : ho (packet_code cfg c i k).
  Proof.
    destruct k as [k|k|p|a|a|a|a|p|k|p|k| | |x|a]; cbn [packet_code]; try apply ho_end; try (apply ho_simple; auto using ho_remove; fail).
    - unfold publish_code. destruct (validate_publish_topic _); [apply ho_end|].
      destruct (pb_qos p); [|destruct (pb_packet_id p) as [n|]|destruct (pb_packet_id p) as [n|]|]; try (apply ho_publish; first [apply ho_respond|apply ho_end]).
      intros s n'. cbn [snd]. apply ho_publish, ho_respond.
    - intros s n. cbn [fst snd]. apply ho_sub. intros rs. match goal with |- ho (Conc.Release _ ?z) => change (ho z) end. apply ho_save. split; reflexivity.
    - intros s n. destruct (unsubscribe_loop (us_payload p) (se_subs s)) as [rs subs]. cbn [snd]. apply ho_save. split; reflexivity.
    - apply ho_respond.
    - intros s n. cbn [snd]. apply ho_id. intros y. cbn [hold]. intros. apply ho_end.
  Qed.
  Lemma ho_begin i u a r subs wl infl : ho (begin_code c i u a r subs wl infl).
  Proof.
    unfold begin_code. cbn [hold]. intros s n. destruct (begin u r s) as [ack t]. cbn [snd]. destruct a; [|split; reflexivity]. cbn [hold]. split; [reflexivity|]. apply ho_id. intros x. cbn [hold snd]. intros _ s1 _.
    cbv zeta. assert (Hr : ho (restore_code c i subs wl infl)).
    { unfold restore_code. cbv zeta. set (rest := emits _ _). assert (Hr : ho rest) by (unfold rest; clear rest; induction infl; cbn; auto).
      set (wills := match wl with Some x => _ | None => _ end). assert (Hw : ho wills) by (unfold wills; destruct wl; [|exact Hr]; intros s' n'; exact Hr).
      destruct subs as [|g fs]; [exact Hw|]. change (ho (restore_all i (g :: fs) (Conc.Release (LSession i) wills))).
      induction (g :: fs) as [|h l IH]; cbn [restore_all]; [exact Hw|]. apply ho_one, IH. }
    destruct (se_will s1); cbn [hold]; auto.
  Qed.
  Lemma hold_connect cfg b k u a : presented k = id -> b = true \/ authenticated cfg k = true -> hold b (connect_code cfg c k u a).
  Proof.
    intros Hp Hb. unfold connect_code. destruct (authenticated cfg k); cbn [negb]; [|destruct Hb as [->|]; [split; [reflexivity|split; reflexivity]|discriminate]]. cbv zeta.
    assert (Hg : forall b r subs wl infl, hold b (enter_code k (fun i => begin_code c i u a r subs wl infl))).
    { intros b' r subs wl infl. unfold enter_code. cbv zeta. cbn [hold]. split; [exact Hp|]. split; [intros j s n; apply ho_begin|]. split; [exact Hp|]. intros j. apply ho_begin. }
    match goal with |- hold b (Acquire _ ?z) => change (hold b z) end. destruct (cf_clean_start _); cbn [hold]; [auto|]. split; [exact Hp|]. split; [intros j; apply Hg|]. intros r.
    destruct r as [| [st|] | | | | |]; try apply Hg. cbn [hold]. auto.
  Qed.
  Lemma ho_handler cfg sv e : event_conn e = c -> (forall k u a, e = EFirst c (Some (Connect k)) u a -> presented k = id) -> ho (handler cfg sv e).
  Proof.
    intros E Hp. destruct e as [d [[]|] u a|d k|d g|d|d|]; simpl in E; subst; destruct sv as [i|]; cbn [handler]; try reflexivity; try (split; reflexivity).
    - apply hold_connect; [eapply Hp; reflexivity|auto].
    - apply ho_packet.
    - unfold out_code. cbn [hold]. intros s n. destruct (process_outgoing g s _) as [[[p| |] s']|]; cbn [snd]; try (split; reflexivity); try reflexivity.
      destruct (pb_packet_id p) as [pid|]; [|split; reflexivity]. destruct (pb_qos p); try (split; reflexivity); apply ho_id; intros x; cbn; auto.
    - apply ho_end.
  Qed.
  Definition there (x : conf) : Prop := exists b, (b = true -> manages id (cn_world x)) /\ (forall k, aget Nat.eqb c (cn_tasks x) = Some k -> hold b k) /\ (aget Nat.eqb c (cn_tasks x) = None -> b = true).
  Definition first_item (i : item) : Prop := forall k u a, i = IStart (EFirst c (Some (Connect k)) u a) -> presented k = id.
  Lemma there_step cfg x m y i : mstep cfg x m = Some (y, i) -> alone c id i -> first_item i -> there x -> there y.
  Proof.
    intros Hm Hf Hi (b & B1 & B2 & B3). apply mstep_inv in Hm. unfold there. destruct Hm as [(e & -> & -> & He & Ha & ->)|[(d & -> & -> & Ha & ->)|(d & k & o & k1 & -> & -> & Ha & Hx & Hy & ->)]]; cbn [cn_tasks cn_world].
    - exists b. split; [exact B1|]. rewrite (aget_aput Nat.eqb Nat.eqb_eq). destruct (Nat.eqb c (event_conn e)) eqn:Ed; [|auto]. apply Nat.eqb_eq in Ed. split; [|discriminate]. intros k Ek. injection Ek as <-.
      rewrite B3 by (rewrite Ed; exact Ha). apply ho_handler; [auto|]. intros k u a ->. eapply Hi. reflexivity.
    - exists b. split; [exact B1|]. rewrite (aget_adel Nat.eqb Nat.eqb_eq). destruct (Nat.eqb c d) eqn:Ed; [|auto]. apply Nat.eqb_eq in Ed. subst d. split; [discriminate|]. intros _. exact (B2 _ Ha).
    - rewrite (aget_aput Nat.eqb Nat.eqb_eq). destruct (Nat.eq_dec d c) as [->|Hd].
      + rewrite Nat.eqb_refl. specialize (B2 _ Ha). assert (Hsame : forall b, hold b k1 -> (b = true -> manages id (apply c o (cn_world x))) -> exists b0, (b0 = true -> manages id (apply c o (cn_world x))) /\ (forall k0, Some k1 = Some k0 -> hold b0 k0) /\ (Some k1 = None -> b0 = true)).
        { intros b0 H1 H2. exists b0. split; [exact H2|]. split; [intros k0 E; injection E as <-; exact H1|discriminate]. }
        destruct k; cbn [Conc.next hold] in *; try discriminate; try (injection Hx as <- <-; apply (Hsame b); [apply B2|exact B1]; fail).
        * destruct (nth_error (w_heap (cn_world x)) i) as [s|]; [|discriminate]. specialize (B2 s (bk_tree (w_broker (cn_world x)))). destruct (f s _) as [s' k']. injection Hx as <- <-. apply (Hsame b); [apply B2|exact B1].
        * injection Hx as <- <-. destruct B2 as (-> & G1 & G2). destruct (aget bytes_eqb id (w_manager (cn_world x))) as [j|] eqn:Ej; [apply (Hsame true); [apply G1|intros _; exists j; exact Ej]|apply (Hsame false); [exact G2|discriminate]].
        * injection Hx as <- <-. apply (Hsame false); [exact B2|discriminate].
        * injection Hx as <- <-. destruct B2 as (-> & G1). apply (Hsame true); [apply G1|]. intros _. eexists. cbn. rewrite aget_aput by apply beqb_spec. assert (Er : bytes_eqb id id = true) by (apply beqb_spec; reflexivity). rewrite Er. reflexivity.
      + destruct (Nat.eqb c d) eqn:Ed; [apply Nat.eqb_eq in Ed; congruence|]. exists b. split; [|auto]. intros Hb. eapply manages_other; eauto.
  Qed.
  Lemma there_runs cfg x tr y : mruns cfg x tr y -> Forall (alone c id) tr -> Forall first_item tr -> there x -> there y.
  Proof. induction 1; intros Hf Hi Hx; [exact Hx|]. inversion Hf; inversion Hi; subst. eauto using there_step. Qed.
End Hold.

Lemma owned_alone {st0} cfg TR x c id {Hsane : Sane cfg st0} : mruns cfg (conf_on st0) TR x -> (forall c, Forall texts (events_of c TR)) -> owns c id TR ->
  forall tr, (forall i, In i tr -> In i TR) -> Forall (alone c id) tr.
Proof.
  intros Hr Ht Ho tr Hin. apply Forall_forall. intros i Hi. destruct i as [e|d o|d]; try exact I. destruct o as [o|j' s s'|g q|t ps|p q| |o r|z r|z|z j' s|j'| |l|l]; try exact I; cbn [alone]; intros Hd.
  - destruct (nobody_else cfg TR x c id Hr Ht Ho d _ (Hin _ Hi) Hd) as [_ H]. exact (H _ _ eq_refl).
  - intros ->. apply Hd, (proj2 Ho), came_named. eapply forget_came; eauto.
  - intros ->. apply Hd, (proj2 Ho), came_named. eapply new_came; eauto.
Qed.
(** A session that is stored was there, or somebody with this identifier has been there. *)
Lemma stored_from id cfg x tr y st : mruns cfg x tr y -> mem_load_session id (w_store (cn_world y)) = Some st ->
  (exists st', mem_load_session id (w_store (cn_world x)) = Some st') \/ exists d s r, In (IStep d (OStore (SaveSession id s) r)) tr.
Proof.
  induction 1 as [x|x m x1 i tr x2 Hm Hr IH]; intros E; [left; eauto|]. destruct (IH E) as [(st' & E1)|(d & s & r & Hi)]; [|right; exists d, s, r; right; exact Hi].
  apply mstep_inv in Hm. destruct Hm as [(e & -> & -> & He & Ha & ->)|[(d & -> & -> & Ha & ->)|(d & k & o & k1 & -> & -> & Ha & Hx & Hy & ->)]]; cbn [cn_world] in E1; try (left; eauto; fail).
  destruct o as [o|j' s s'|g q|t ps|p q| |o r|z r|z|z j' s|j'| |l|l]; try (left; eauto; fail).
  assert (Hs : (exists z s, o = SaveSession z s) \/ forall z s, o <> SaveSession z s) by (destruct o; try (right; discriminate); left; eauto). destruct Hs as [(z & s & ->)|Hs].
  - destruct (bytes_eqb id z) eqn:Ez; [apply beqb_spec in Ez; subst z; right; exists d, s, r; left; reflexivity|]. left. exists st'. rewrite <- E1. symmetry. apply (keyless_sessions id (SaveSession z s)). cbn. intros K. injection K as ->.
    assert (bytes_eqb id id = true) by (apply beqb_spec; reflexivity). congruence.
  - left. exists st'. exact (load_back id o _ _ Hs E1).
Qed.
Lemma stored_named cfg trs st0 tr x id st : lives cfg trs st0 -> mruns cfg (conf_on st0) tr x -> (forall c, Forall texts (events_of c tr)) -> mem_load_session id (w_store (cn_world x)) = Some st ->
  (exists st', mem_load_session id st0 = Some st') \/ exists d, named d id tr.
Proof.
  intros Hl Hr Ht E. pose proof (lives_sane _ _ _ Hl) as Hsane. destruct (stored_from _ _ _ _ _ _ Hr E) as [(st' & E1)|(d & s & r & Hi)]; [left; exists st'; exact E1|right].
  destruct (keyed_runs cfg tr Ht (conf_on st0) tr x Hr [] []) as [_ H]; [rewrite app_nil_r; reflexivity|constructor|discriminate|]. destruct (H _ _ _ Hi) as [_ Hk]. destruct (Hk id eq_refl) as (e & _ & He). eauto.
Qed.
Lemma stored_bears cfg trs st0 id st : lives cfg trs st0 -> mem_load_session id st0 = Some st -> exists n d, bears trs n d id.
Proof.
  intros Hl. revert st. induction Hl as [|trs st0 tr x Hl IH Hr Ht]; intros st E; [discriminate|]. destruct (stored_named _ _ _ _ _ _ _ Hl Hr Ht E) as [(st' & E1)|(d & Hd)].
  - destruct (IH _ E1) as (n & d & tr' & H1 & H2). exists n, d, tr'. split; [|exact H2]. rewrite nth_error_app1; [exact H1|]. apply nth_error_Some. congruence.
  - exists (length trs), d, tr. split; [|exact Hd]. rewrite nth_error_app2, Nat.sub_diag by lia. reflexivity.
Qed.
