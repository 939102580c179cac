(** Invariants over histories: which CONNECT opened a connection, which identifiers have been
    used, and when the store agrees with the sessions. *)
From Verif Require Import Base Utf8 Codec SpecCodec Tac Maps CodecFacts Topic SpecTopic TopicFacts Property PacketProps Packets
  TopicTree TreeFacts Storage SpecStorage StorageFacts Broker SpecBroker BrokerFacts Auth Session Server SpecServer SessionFacts
  ServerFacts HandlerFacts HistoryFacts ProvenanceFacts WorldFacts DeliveryFacts StoreFacts.

Lemma run_snoc cfg es e w : fst (run cfg (es ++ [e]) w) = fst (step cfg (fst (run cfg es w)) e).
Proof. rewrite run_app. cbn [fst]. rewrite run_cons. cbn [fst]. reflexivity. Qed.
Lemma state_snoc cfg es e : state cfg (es ++ [e]) = fst (step cfg (state cfg es) e).
Proof. apply run_snoc. Qed.
Lemma state_wf cfg es : wf (state cfg es).
Proof. apply run_wf, wf_new. Qed.
Lemma state_reachable cfg es : reachable cfg (state cfg es).
Proof. exists es. reflexivity. Qed.

Lemma is_first e : not_first e \/ exists d k u a, e = EFirst d k u a.
Proof. destruct e; try (left; intros ? ? ? ?; discriminate). right. eauto. Qed.
Lemma is_restart e : e = ERestart \/ e <> ERestart.
Proof. destruct e; auto; right; discriminate. Qed.

(** ** Who opened a connection *)
Lemma snoc_split {A} (a b l : list A) (x y : A) : a ++ x :: b = l ++ [y] ->
  (b = [] /\ x = y /\ a = l) \/ exists b', b = b' ++ [y] /\ l = a ++ x :: b'.
Proof.
  intros H. destruct b as [|z b] using rev_ind.
  - left. apply app_inj_tail in H. destruct H; auto.
  - right. exists b. change (a ++ x :: b ++ [z]) with (a ++ (x :: b) ++ [z]) in H. rewrite app_assoc in H.
    apply app_inj_tail in H. destruct H as [H ->]. auto.
Qed.
Lemma opened_snoc cfg es e c k : opened_by cfg es c k -> ~ not_served (state cfg (es ++ [e])) c -> opened_by cfg (es ++ [e]) c k.
Proof.
  intros (es1 & u & es2 & -> & Hn & Ha & Hp) Hs. exists es1, u, (es2 ++ [e]). split; [rewrite <- app_assoc; reflexivity|].
  split; auto. split; auto. intros p q Hpq. destruct q as [|x q] using rev_ind.
  - rewrite app_nil_r in Hpq. subst p. rewrite <- app_assoc in Hs. exact Hs.
  - clear IHq. rewrite app_assoc in Hpq. apply app_inj_tail in Hpq. destruct Hpq as [-> _]. eapply Hp. reflexivity.
Qed.
Lemma connected_snoc cfg es e c k u a : connected cfg es c k u a -> connected cfg (es ++ [e]) c k u a.
Proof.
  intros (es1 & es2 & -> & Hn & Ha). exists es1, (es2 ++ [e]). rewrite <- app_assoc. auto.
Qed.
Lemma connected_last cfg es c k u a : not_served (state cfg es) c -> accepts cfg k ->
  connected cfg (es ++ [EFirst c (Some (Connect k)) u a]) c k u a.
Proof. intros Hn Ha. exists es, []. auto. Qed.
Lemma connected_inv cfg es e c k u a : connected cfg (es ++ [e]) c k u a ->
  connected cfg es c k u a \/ (e = EFirst c (Some (Connect k)) u a /\ not_served (state cfg es) c /\ accepts cfg k).
Proof.
  intros (es1 & es2 & H & Hn & Ha). symmetry in H. apply snoc_split in H. destruct H as [(-> & <- & ->)|(b & -> & ->)].
  - right. auto.
  - left. exists es1, b. auto.
Qed.

Record owned (cfg : config) (es : list event) (own : nat -> bytes) : Prop := {
  ow_manager : forall id i, aget bytes_eqb id (w_manager (state cfg es)) = Some i -> own i = id;
  ow_conns : forall c i, aget Nat.eqb c (w_conns (state cfg es)) = Some i -> exists k, opened_by cfg es c k /\ presented k = own i;
  ow_heap : forall j s, nth_error (w_heap (state cfg es)) j = Some s ->
    exists c k u a, connected cfg es c k u a /\ presented k = own j /\ identifier k u = se_client_id s
}.
(** A CONNECT that enters session [i]. *)
Lemma owned_connect cfg es own d q u a i w' o : owned cfg es own ->
  step cfg (state cfg es) (EFirst d (Some (Connect q)) u a) = (w', o) -> not_served (state cfg es) d -> authenticated cfg q = true ->
  (exists subs wl infl s, entered q (state cfg es) i subs wl infl s) ->
  w_manager w' = aput bytes_eqb (client_id q) i (if cf_clean_start (c_flags q) then adel bytes_eqb (client_id q) (w_manager (state cfg es)) else w_manager (state cfg es)) ->
  (w_conns w' = if a then aput Nat.eqb d i (w_conns (state cfg es)) else w_conns (state cfg es)) ->
  owned cfg (es ++ [EFirst d (Some (Connect q)) u a]) (fun j => if Nat.eqb j i then presented q else own j).
Proof.
  intros [O1 O2 O3] E Hn Ha (subs & wl & infl & s & Hen) Hm Hcn. pose proof (state_wf cfg es) as Hwf.
  set (e := EFirst d (Some (Connect q)) u a) in *. assert (He : e <> ERestart) by (unfold e; discriminate).
  assert (Hst : state cfg (es ++ [e]) = w') by (rewrite state_snoc, E; reflexivity).
  assert (Hkeep : forall c k, opened_by cfg es c k -> aget Nat.eqb c (w_conns w') <> None -> opened_by cfg (es ++ [e]) c k).
  { intros c k Ho Hc. apply opened_snoc; auto. rewrite Hst. exact Hc. }
  assert (Hown : forall j, (j < length (w_heap (state cfg es)))%nat -> (if Nat.eqb j i then presented q else own j) = own j).
  { intros j Hj. destruct (Nat.eqb j i) eqn:Ej; auto. apply Nat.eqb_eq in Ej. subst j.
    destruct Hen as [s0 _ Hx _|? ? ? ->]; [|lia]. symmetry. apply O1. exact Hx. }
  assert (O1' : forall id j, aget bytes_eqb id (w_manager w') = Some j -> (if Nat.eqb j i then presented q else own j) = id).
  { intros id j. rewrite Hm, aget_aput by apply beqb_spec. destruct (bytes_eqb id (client_id q)) eqn:Eb.
    { intros Hj. injection Hj as <-. rewrite Nat.eqb_refl. apply beqb_spec in Eb. subst id. reflexivity. }
    assert (Hdel : aget bytes_eqb id (if cf_clean_start (c_flags q) then adel bytes_eqb (client_id q) (w_manager (state cfg es)) else w_manager (state cfg es)) = Some j ->
      aget bytes_eqb id (w_manager (state cfg es)) = Some j).
    { destruct (cf_clean_start (c_flags q)); auto. rewrite aget_adel by apply beqb_spec. destruct (bytes_eqb id _); [discriminate|auto]. }
    intros Hj. apply Hdel in Hj. rewrite Hown by (eapply (proj1 Hwf); eauto). auto. }
  split; rewrite Hst; auto.
  - intros c j Hj. assert (Hc : (a = true /\ c = d /\ j = i) \/ aget Nat.eqb c (w_conns (state cfg es)) = Some j).
    { rewrite Hcn in Hj. destruct a; auto. rewrite aget_aput in Hj by apply nateqb_spec. destruct (Nat.eqb c d) eqn:Ecd; auto.
      apply Nat.eqb_eq in Ecd. injection Hj as ->. auto. }
    destruct Hc as [(Ea & -> & ->)|Hc].
    + exists q. rewrite Nat.eqb_refl. split; auto. exists es, u, []. unfold e. rewrite Ea in *. split; auto. split; auto. split; [apply authenticated_iff, Ha|].
      intros p r Hpr. symmetry in Hpr. apply app_eq_nil in Hpr. destruct Hpr as [-> ->]. unfold e in Hst. rewrite Ea in Hst. rewrite Hst. unfold not_served. congruence.
    + destruct (O2 c j Hc) as (k' & Hk1 & Hk2). exists k'. split; [apply Hkeep; auto; congruence|].
      rewrite Hown by (eapply (proj2 Hwf); eauto). exact Hk2.
  - intros j s' Hj. destruct (step_ids _ _ _ _ _ _ _ Hwf He E Hj) as [(s0 & Hs0 & ->)|(c & k & v & b & Ee & Hn' & Ha' & Hid & Hmj)].
    + destruct (O3 j s0 Hs0) as (c & k & v & b & Hk & Hk1 & Hk2). exists c, k, v, b. split; [apply connected_snoc, Hk|].
      rewrite Hown by (eapply nth_error_lt; eauto). auto.
    + exists c, k, v, b. split; [rewrite Ee; apply connected_last; auto; apply authenticated_iff, Ha'|].
      split; [symmetry; apply O1'; exact Hmj|symmetry; exact Hid].
Qed.
Lemma owned_exists cfg es : exists own, owned cfg es own.
Proof.
  induction es as [|e es IH] using rev_ind.
  - exists (fun _ => []). split; try (simpl; intros ? ? H; discriminate). intros [|j] s H; discriminate.
  - destruct IH as [own Hown]. pose proof Hown as [O1 O2 O3]. pose proof (state_wf cfg es) as Hwf.
    destruct (step cfg (state cfg es) e) as [w' o] eqn:E.
    assert (Hst : state cfg (es ++ [e]) = w') by (rewrite state_snoc, E; reflexivity).
    destruct (is_restart e) as [->|He].
    { exists own. simpl in E. injection E as E _. split; rewrite Hst, <- E; try (simpl; intros ? ? H; discriminate). intros [|j] s H; discriminate. }
    assert (Hkeep : forall c k, opened_by cfg es c k -> aget Nat.eqb c (w_conns w') <> None -> opened_by cfg (es ++ [e]) c k).
    { intros c k Ho Hc. apply opened_snoc; auto. rewrite Hst. exact Hc. }
    assert (Hids : (forall j s', nth_error (w_heap w') j = Some s' -> exists s, nth_error (w_heap (state cfg es)) j = Some s /\ se_client_id s' = se_client_id s) ->
      forall j s, nth_error (w_heap w') j = Some s -> exists c k u a, connected cfg (es ++ [e]) c k u a /\ presented k = own j /\ identifier k u = se_client_id s).
    { intros Hi j s Hj. destruct (Hi j s Hj) as (s0 & Hs0 & ->). destruct (O3 j s0 Hs0) as (c & k & v & b & Hk & Hk1). exists c, k, v, b.
      split; auto. apply connected_snoc, Hk. }
    destruct (is_first e) as [Hnf|(d & k & u & a & ->)].
    { destruct (step_manager _ _ _ _ _ He Hnf E) as (Hm & _ & Hc). exists own. split; rewrite Hst.
      - intros id i. rewrite Hm. apply O1.
      - intros c i Hi. destruct (O2 c i (Hc _ _ Hi)) as (k & Hk1 & Hk2). exists k. split; auto. apply Hkeep; auto. congruence.
      - apply Hids. intros j s' Hj. destruct (step_ids _ _ _ _ _ _ _ Hwf He E Hj) as [Hx|(c & k & v & b & Ee & _)]; auto.
        exfalso. eapply Hnf. exact Ee. }
    destruct (first_cases _ _ _ _ _ _ _ _ Hwf E) as [(-> & _)|[(q & i & subs & wl & infl & s & s1 & -> & -> & Hn & Ha & Hac)|(q & i & s & -> & -> & Hn & Ha & Hac)]].
    + exists own. split; rewrite Hst; auto.
      * intros c i Hi. destruct (O2 c i Hi) as (k' & Hk1 & Hk2). exists k'. split; auto. apply Hkeep; auto. congruence.
      * apply Hids. intros j s' Hj. eauto.
    + eexists. eapply owned_connect; eauto; destruct Hac; eauto 8.
    + eexists. eapply owned_connect; eauto; destruct Hac as [(subs & wl & infl & Hen)]; eauto 8.
Qed.

(** ** Which identifiers have been used *)
Record used (cfg : config) (es : list event) : Prop := {
  us_manager : forall id, aget bytes_eqb id (w_manager (state cfg es)) <> None ->
    exists c k u a, connected cfg es c k u a /\ presented k = id;
  us_store : forall id, mem_load_session id (w_store (state cfg es)) <> None ->
    exists c k u a, connected cfg es c k u a /\ identifier k u = id;
  us_heap : forall j s, nth_error (w_heap (state cfg es)) j = Some s ->
    exists c k u a, connected cfg es c k u a /\ identifier k u = se_client_id s
}.
Lemma used_all cfg es : used cfg es.
Proof.
  induction es as [|e es IH] using rev_ind.
  - split; [intros id H; exfalso; apply H; reflexivity|intros id H; exfalso; apply H; reflexivity|intros [|j] s H; discriminate].
  - destruct IH as [U1 U2 U3]. pose proof (state_wf cfg es) as Hwf.
    destruct (step cfg (state cfg es) e) as [w' o] eqn:E.
    assert (Hst : state cfg (es ++ [e]) = w') by (rewrite state_snoc, E; reflexivity).
    assert (Mono : forall (P : nat -> connect_packet -> bytes -> bool -> Prop),
      (exists c k u a, connected cfg es c k u a /\ P c k u a) -> exists c k u a, connected cfg (es ++ [e]) c k u a /\ P c k u a).
    { intros P (c & k & u & a & H & HP). exists c, k, u, a. split; auto. apply connected_snoc, H. }
    destruct (is_restart e) as [->|He].
    { simpl in E. injection E as E _. split; rewrite Hst, <- E.
      - intros id H. exfalso. apply H. reflexivity.
      - intros id H. apply (Mono (fun c k u a => identifier k u = id)). apply U2. exact H.
      - intros [|j] s H; discriminate. }
    split; rewrite Hst.
    + intros id H. destruct (is_first e) as [Hnf|(d & k & u & a & ->)].
      * destruct (step_manager _ _ _ _ _ He Hnf E) as (Hm & _). rewrite Hm in H. apply (Mono (fun c k u a => presented k = id)). auto.
      * assert (Hgen : forall q i, k = Some (Connect q) -> not_served (state cfg es) d -> authenticated cfg q = true ->
          w_manager w' = aput bytes_eqb (client_id q) i (if cf_clean_start (c_flags q) then adel bytes_eqb (client_id q) (w_manager (state cfg es)) else w_manager (state cfg es)) ->
          exists c k0 u0 a0, connected cfg (es ++ [EFirst d k u a]) c k0 u0 a0 /\ presented k0 = id).
        { intros q i -> Hn Ha Hm. rewrite Hm, aget_aput in H by apply beqb_spec. destruct (bytes_eqb id (client_id q)) eqn:Eb.
          - apply beqb_spec in Eb. exists d, q, u, a. split; [|symmetry; exact Eb]. apply connected_last; auto. apply authenticated_iff, Ha.
          - apply (Mono (fun c k u a => presented k = id)). apply U1. destruct (cf_clean_start (c_flags q)); auto.
            rewrite aget_adel in H by apply beqb_spec. destruct (bytes_eqb id (client_id _)); [congruence|exact H]. }
        destruct (first_cases _ _ _ _ _ _ _ _ Hwf E) as [(-> & _)|[(q & i & subs & wl & infl & s & s1 & -> & -> & Hn & Ha & Hac)|(q & i & s & -> & -> & Hn & Ha & Hac)]].
        -- apply (Mono (fun c k u a => presented k = id)). auto.
        -- destruct Hac. eapply Hgen; eauto.
        -- destruct Hac. eapply Hgen; eauto.
    + intros id H. unfold mem_load_session in *. destruct (step_sessions _ _ _ _ _ Hwf E)
        as [Hs|[(c & k & u & i & subs & wl & infl & s & s1 & -> & Hn & Ha & Hac)|[(c & k & u & i & s & -> & Hn & Ha & Hac)|(c & k & i & s & s1 & -> & Hk & Hsv & Hi & Hid & Hs)]]].
      * rewrite Hs in H. apply (Mono (fun c k u a => identifier k u = id)). auto.
      * rewrite (ac_store _ _ _ _ _ _ _ _ _ _ _ _ _ Hac), connect_sessions in H.
        destruct (accepted_id _ _ _ _ _ _ _ _ _ _ _ _ _ Hac) as [_ Hfi]. rewrite Hfi, aget_aput in H by apply beqb_spec.
        destruct (bytes_eqb id (final_id k u)) eqn:Eb.
        -- apply beqb_spec in Eb. exists c, k, u, true. split; [|symmetry; exact Eb]. apply connected_last; auto. apply authenticated_iff, Ha.
        -- apply (Mono (fun c k u a => identifier k u = id)). apply U2. destruct (cf_clean_start (c_flags k)); auto.
           rewrite aget_adel in H by apply beqb_spec. destruct (bytes_eqb id (client_id k)); [congruence|exact H].
      * rewrite (un_store _ _ _ _ _ _ _ _ Hac) in H. apply (Mono (fun c k u a => identifier k u = id)). apply U2.
        destruct (cf_clean_start (c_flags k)); auto.
        simpl in H. rewrite aget_adel in H by apply beqb_spec. destruct (bytes_eqb id (client_id _)); [congruence|exact H].
      * rewrite Hs, aget_aput in H by apply beqb_spec. destruct (bytes_eqb id (se_client_id s)) eqn:Eb.
        -- apply beqb_spec in Eb. subst id. apply (Mono (fun c k u a => identifier k u = se_client_id s)). eapply U3. apply Hsv.
        -- apply (Mono (fun c k u a => identifier k u = id)). auto.
    + intros j s Hj. destruct (step_ids _ _ _ _ _ _ _ Hwf He E Hj) as [(s0 & Hs0 & ->)|(c & k & u & a & -> & Hn & Ha & Hid & _)].
      * apply (Mono (fun c k u a => identifier k u = se_client_id s0)). eauto.
      * exists c, k, u, a. split; [|symmetry; exact Hid]. apply connected_last; auto. apply authenticated_iff, Ha.
Qed.

(** A CONNECT that was acknowledged leaves a stored session, unless a later CONNECT with clean
    start removed it and could not be acknowledged. *)
Lemma stored_after_connect cfg es c k u id : id <> [] -> connected cfg es c k u true -> identifier k u = id ->
  (forall d q v, connected cfg es d q v false -> presented q = id -> cf_clean_start (c_flags q) = false) ->
  mem_load_session id (w_store (state cfg es)) <> None.
Proof.
  intros Hid. revert c k u. induction es as [|e es IH] using rev_ind; intros c k u Hc Hi Hun.
  - destruct Hc as ([|? ?] & ? & H & _); discriminate.
  - pose proof (state_wf cfg es) as Hwf. destruct (step cfg (state cfg es) e) as [w' o] eqn:E.
    assert (Hst : state cfg (es ++ [e]) = w') by (rewrite state_snoc, E; reflexivity). rewrite Hst.
    assert (Hold : mem_load_session id (w_store (state cfg es)) <> None -> mem_load_session id (w_store w') <> None).
    { unfold mem_load_session. intros H. destruct (step_sessions _ _ _ _ _ Hwf E)
        as [Hs|[(d & q & v & i & subs & wl & infl & s & s1 & -> & Hn & Ha & Hac)|[(d & q & v & i & s & -> & Hn & Ha & Hac)|(d & q & i & s & s1 & -> & Hk & Hsv & Hii & Hidd & Hs)]]].
      - rewrite Hs. exact H.
      - rewrite (ac_store _ _ _ _ _ _ _ _ _ _ _ _ _ Hac), connect_sessions.
        destruct (accepted_id _ _ _ _ _ _ _ _ _ _ _ _ _ Hac) as [_ Hfi]. rewrite Hfi, aget_aput by apply beqb_spec.
        destruct (bytes_eqb id (final_id q v)) eqn:Eb; [discriminate|].
        destruct (cf_clean_start (c_flags q)); auto. rewrite aget_adel by apply beqb_spec.
        destruct (bytes_eqb id (client_id q)) eqn:Eb2; auto. exfalso. apply beqb_spec in Eb2.
        assert (Hf : final_id q v = id) by (unfold final_id; rewrite <- Eb2; destruct id; congruence).
        rewrite Hf, bytes_eqb_refl in Eb. discriminate.
      - rewrite (un_store _ _ _ _ _ _ _ _ Hac). destruct (cf_clean_start (c_flags q)) eqn:Ecl; auto.
        simpl. rewrite aget_adel by apply beqb_spec. destruct (bytes_eqb id (client_id q)) eqn:Eb2; auto. exfalso. apply beqb_spec in Eb2.
        rewrite (Hun d q v) in Ecl; [discriminate| |symmetry; exact Eb2]. apply connected_last; auto. apply authenticated_iff, Ha.
      - rewrite Hs, aget_aput by apply beqb_spec. destruct (bytes_eqb id (se_client_id s)); [discriminate|exact H]. }
    apply connected_inv in Hc. destruct Hc as [Hc|(-> & Hn & Ha)].
    + apply Hold. eapply IH; eauto. intros d q v Hd. apply (Hun d q v). apply connected_snoc, Hd.
    + apply authenticated_iff in Ha. destruct (connect_accept cfg c k u _ _ _ Hwf Hn Ha E) as (i & subs & wl & infl & s & s1 & Hac).
      unfold mem_load_session. rewrite (ac_store _ _ _ _ _ _ _ _ _ _ _ _ _ Hac), connect_sessions.
      destruct (accepted_id _ _ _ _ _ _ _ _ _ _ _ _ _ Hac) as [_ Hfi]. rewrite Hfi, aget_aput by apply beqb_spec.
      change (final_id k u) with (identifier k u). rewrite Hi, bytes_eqb_refl. discriminate.
Qed.

(** ** Sessions an identifier can still get *)
Lemma manager_young cfg es : forall w id n, wf w -> (forall e, In e es -> e <> ERestart) -> (n <= length (w_heap w))%nat ->
  (forall j, aget bytes_eqb id (w_manager w) = Some j -> (n <= j)%nat) ->
  (n <= length (w_heap (fst (run cfg es w))))%nat /\
  forall j, aget bytes_eqb id (w_manager (fst (run cfg es w))) = Some j -> (n <= j)%nat.
Proof.
  induction es as [|e es IH]; intros w id n Hwf He Hn Hm; [auto|].
  rewrite run_cons. cbn [fst]. destruct (step cfg w e) as [w1 o1] eqn:E. cbn [fst].
  assert (He0 : e <> ERestart) by (apply He; left; reflexivity).
  destruct (step_heap _ _ _ _ _ Hwf He0 E) as (_ & _ & Hwf1 & Hlen).
  apply IH; auto; [intros e1 H1; apply He; right; exact H1|lia|].
  destruct (is_first e) as [Hnf|(d & k & u & a & ->)].
  { destruct (step_manager _ _ _ _ _ He0 Hnf E) as (-> & _). exact Hm. }
  assert (Hgen : forall q i, (exists subs wl infl s, entered q w i subs wl infl s) ->
     w_manager w1 = aput bytes_eqb (client_id q) i (if cf_clean_start (c_flags q) then adel bytes_eqb (client_id q) (w_manager w) else w_manager w) ->
     forall j, aget bytes_eqb id (w_manager w1) = Some j -> (n <= j)%nat).
  { intros q i (subs & wl & infl & s & Hen) Hmm j. rewrite Hmm, aget_aput by apply beqb_spec. destruct (bytes_eqb id (client_id q)) eqn:Eb.
    - intros Hj. injection Hj as <-. apply beqb_spec in Eb. subst id. destruct Hen as [s0 _ Hx _|? ? ? ->]; [|exact Hn]. apply Hm. exact Hx.
    - destruct (cf_clean_start (c_flags q)); auto. rewrite aget_adel by apply beqb_spec. destruct (bytes_eqb id _); [discriminate|auto]. }
  destruct (first_cases _ _ _ _ _ _ _ _ Hwf E) as [(-> & _)|[(q & i & subs & wl & infl & s & s1 & -> & -> & Hns & Ha & Hac)|(q & i & s & -> & -> & Hns & Ha & Hac)]]; auto.
  - destruct Hac. eapply Hgen; eauto.
  - destruct Hac as [(subs & wl & infl & Hen)]. eapply Hgen; eauto 8.
Qed.

(** ** Sessions and their stored form *)
(** Session [i] is the only one served to the client [id], and of no other client. *)
Record exclusive (w : world) (i : nat) (id : bytes) : Prop := {
  ex_session : exists s, nth_error (w_heap w) i = Some s /\ se_client_id s = id;
  ex_only : forall c j s, serves w c j s -> se_client_id s = id -> j = i;
  ex_key : forall x, aget bytes_eqb x (w_manager w) = Some i -> x = id
}.
Lemma exclusive_step cfg w e w' o i id : wf w -> avoids id e -> step cfg w e = (w', o) -> exclusive w i id -> exclusive w' i id.
Proof.
  intros Hwf [He Hav] H [(s & Hi & Hid) X2 X3].
  assert (Hlt : (i < length (w_heap w))%nat) by (eapply nth_error_lt; eauto).
  assert (Hs' : exists s', nth_error (w_heap w') i = Some s').
  { destruct (step_heap _ _ _ _ _ Hwf He H) as (Hh & _). destruct (Hh i s Hi) as (s' & Hs' & _). eauto. }
  split.
  - destruct Hs' as [s' Hs']. exists s'. split; auto.
    destruct (step_ids _ _ _ _ _ _ _ Hwf He H Hs') as [(s0 & Hs0 & ->)|(c & k & u & a & -> & Hn & Ha & Hx & Hm)]; [congruence|].
    exfalso. destruct (first_cases _ _ _ _ _ _ _ _ Hwf H) as [(-> & _)|[(q & j & subs & wl & infl & s0 & s1 & Eq & -> & _ & _ & Hac)|(q & j & s0 & Eq & -> & _ & _ & Hac)]].
    + apply X3 in Hm. eapply (proj1 (Hav _ _ _ _ eq_refl)). exact Hm.
    + injection Eq as <-. assert (Hmm := ac_manager _ _ _ _ _ _ _ _ _ _ _ _ _ Hac). rewrite Hmm, aget_put_same in Hm by apply beqb_spec.
      injection Hm as ->. destruct (ac_entered _ _ _ _ _ _ _ _ _ _ _ _ _ Hac) as [s2 _ Hx2 _|]; [|lia].
      apply X3 in Hx2. eapply (proj1 (Hav _ _ _ _ eq_refl)). exact Hx2.
    + injection Eq as <-. assert (Hmm := un_manager _ _ _ _ _ _ _ _ Hac). rewrite Hmm, aget_put_same in Hm by apply beqb_spec.
      injection Hm as ->. destruct (un_entered _ _ _ _ _ _ _ _ Hac) as (subs & wl & infl & [s2 _ Hx2 _|]); [|lia].
      apply X3 in Hx2. eapply (proj1 (Hav _ _ _ _ eq_refl)). exact Hx2.
  - intros d j x [Hd Hj] Hx. destruct (step_ids _ _ _ _ _ _ _ Hwf He H Hj) as [(s0 & Hs0 & Hs1)|(c & k & u & a & -> & Hn & Ha & Hx2 & Hm)].
    + assert (Hcd : (forall k u a, e <> EFirst d k u a) -> aget Nat.eqb d (w_conns w) = Some j).
      { intros Hne. destruct (step_conns _ _ _ _ _ d H Hne) as [Hc|Hc]; unfold not_served in *; congruence. }
      destruct (is_first e) as [Hnf|(d' & k & u & a & ->)].
      { apply (X2 d j s0); [split; [apply Hcd; intros ? ? ? ->; eapply Hnf; reflexivity|auto]|congruence]. }
      destruct (Nat.eq_dec d' d) as [->|Hne].
      2:{ apply (X2 d j s0); [split; [apply Hcd; intros ? ? ? E; inv E; congruence|auto]|congruence]. }
      destruct (first_cases _ _ _ _ _ _ _ _ Hwf H) as [(-> & _)|[(q & i' & subs & wl & infl & s1 & s2 & -> & -> & _ & _ & Hac)|(q & i' & s1 & -> & -> & Hn & _ & Hac)]].
      * apply (X2 d j s0); [split; auto|congruence].
      * exfalso. destruct (accepted_id _ _ _ _ _ _ _ _ _ _ _ _ _ Hac) as [Hfi _].
        rewrite (ac_conns _ _ _ _ _ _ _ _ _ _ _ _ _ Hac), aget_put_same in Hd by apply nateqb_spec. injection Hd as ->.
        rewrite (ac_session _ _ _ _ _ _ _ _ _ _ _ _ _ Hac) in Hj. injection Hj as <-.
        eapply (proj2 (Hav _ _ _ _ eq_refl)). change (final_id q u = id). rewrite <- Hfi, <- Hx. destruct wl; reflexivity.
      * exfalso. rewrite (un_conns _ _ _ _ _ _ _ _ Hac) in Hd. unfold not_served in Hn. congruence.
    + exfalso. eapply (proj2 (Hav _ _ _ _ eq_refl)). change (final_id k u = id). congruence.
  - intros x Hx. destruct (is_first e) as [Hnf|(d & k & u & a & ->)].
    { destruct (step_manager _ _ _ _ _ He Hnf H) as (Hm & _). rewrite Hm in Hx. auto. }
    assert (Hgen : forall q j, k = Some (Connect q) -> (exists subs wl infl s, entered q w j subs wl infl s) ->
       w_manager w' = aput bytes_eqb (client_id q) j (if cf_clean_start (c_flags q) then adel bytes_eqb (client_id q) (w_manager w) else w_manager w) -> x = id).
    { intros q j -> (subs & wl & infl & s0 & Hen) Hmm. rewrite Hmm, aget_aput in Hx by apply beqb_spec.
      destruct (bytes_eqb x (client_id q)) eqn:Eb.
      - injection Hx as ->. exfalso. destruct Hen as [s2 _ Hx2 _|]; [|lia]. apply X3 in Hx2. eapply (proj1 (Hav _ _ _ _ eq_refl)). exact Hx2.
      - apply X3. destruct (cf_clean_start (c_flags q)); auto. rewrite aget_adel in Hx by apply beqb_spec. destruct (bytes_eqb x _); [discriminate|auto]. }
    destruct (first_cases _ _ _ _ _ _ _ _ Hwf H) as [(-> & _)|[(q & j & subs & wl & infl & s0 & s1 & -> & -> & Hn & Ha & Hac)|(q & j & s0 & -> & -> & Hn & Ha & Hac)]]; auto.
    + destruct Hac. eapply Hgen; eauto 8.
    + destruct Hac as [(subs & wl & infl & Hen)]. eapply Hgen; eauto 8.
Qed.

Lemma packet_keys am k s b r s' b' f : process_incoming am k s b = (r, s', b') -> is_subscription_change k = false ->
  (subscribed s' f <-> subscribed s f).
Proof.
  intros H Hk. assert (Hs : se_subs s' = se_subs s); [|unfold subscribed; rewrite Hs; tauto].
  destruct k; simpl in H, Hk; try discriminate; try (injection H as <- <- <-; reflexivity).
  - unfold handle_publish in H. destruct (validate_publish_topic _); [inv H; auto|].
    destruct (pb_qos _); [|destruct (pb_packet_id _)|destruct (pb_packet_id _)|]; injection H as <- <- <-; reflexivity.
  - destruct (handle_auth am a s) as [r1 s1] eqn:E. injection H as <- <- <-. unfold handle_auth in E. repeat case_match; inv E; reflexivity.
Qed.

Definition in_store (w : world) (i : nat) (id : bytes) : Prop :=
  exists s st, nth_error (w_heap w) i = Some s /\ mem_load_session id (w_store w) = Some st
    /\ forall f, In f (ss_subscriptions st) <-> subscribed s f.
Lemma in_store_step cfg w e w' o i id : wf w -> avoids id e -> step cfg w e = (w', o) -> exclusive w i id -> in_store w i id -> in_store w' i id.
Proof.
  intros Hwf [He Hav] H X (s & st & Hi & Hst & Hsub).
  assert (Hid : se_client_id s = id) by (destruct (ex_session _ _ _ X) as (x & Hx1 & Hx2); congruence).
  assert (Hlt : (i < length (w_heap w))%nat) by (eapply nth_error_lt; eauto).
  assert (Hpr : forall x, presents e x -> aget bytes_eqb x (w_manager w) <> Some i).
  { intros x (c & k & u & a & -> & Hk) Hx. apply (ex_key _ _ _ X) in Hx. eapply (proj1 (Hav _ _ _ _ eq_refl)). unfold presented, client_id in *. congruence. }
  assert (Hstore : mem_load_session id (w_store w') = Some st \/
    (exists c k s', e = EPacket c k /\ is_subscription_change k = true /\ aget Nat.eqb c (w_conns w) = Some i /\ nth_error (w_heap w') i = Some s'
       /\ mem_load_session id (w_store w') = Some (Mk_session_state id (subscription_filters s') false))).
  { unfold mem_load_session in *. destruct (step_sessions _ _ _ _ _ Hwf H)
        as [Hs|[(d & q & v & j & subs & wl & infl & s0 & s1 & -> & Hn & Ha & Hac)|[(d & q & v & j & s0 & -> & Hn & Ha & Hac)|(d & q & j & s0 & s1 & -> & Hk & Hsv & Hii & Hidd & Hs)]]].
    - left. rewrite Hs. exact Hst.
    - left. rewrite (ac_store _ _ _ _ _ _ _ _ _ _ _ _ _ Hac), connect_sessions.
      destruct (accepted_id _ _ _ _ _ _ _ _ _ _ _ _ _ Hac) as [_ Hfi]. destruct (Hav _ _ _ _ eq_refl) as [A1 A2].
      rewrite Hfi, aget_put_other by (try apply beqb_spec; intros E; apply A2; symmetry; exact E).
      destruct (cf_clean_start (c_flags q)); auto. rewrite aget_del_other by (try apply beqb_spec; intros E; apply A1; symmetry; exact E). exact Hst.
    - left. rewrite (un_store _ _ _ _ _ _ _ _ Hac). destruct (Hav _ _ _ _ eq_refl) as [A1 A2].
      destruct (cf_clean_start (c_flags q)); auto. simpl. rewrite aget_del_other by (try apply beqb_spec; intros E; apply A1; symmetry; exact E). exact Hst.
    - destruct Hsv as [Hc Hj]. rewrite Hs, aget_aput by apply beqb_spec. destruct (bytes_eqb id (se_client_id s0)) eqn:Eb.
      + apply beqb_spec in Eb. assert (j = i) by (apply (ex_only _ _ _ X d j s0); [split; auto|congruence]). subst j. right. exists d, q, s1. rewrite <- Eb. auto 8.
      + left. exact Hst. }
  destruct Hstore as [Hst'|(c & k & s' & -> & Hk & Hc & Hi' & Hst')].
  2:{ exists s'. eexists. split; [exact Hi'|]. split; [exact Hst'|]. intros f. simpl. unfold subscription_filters, subscribed. reflexivity. }
  (* the subscriptions of the session did not change *)
  destruct (step_heap _ _ _ _ _ Hwf He H) as (Hh & _). destruct (Hh i s Hi) as (s' & Hi' & Hch).
  exists s', st. split; auto. split; auto. intros f.
  assert (Hcase : (exists c, aget Nat.eqb c (w_conns w) = Some i /\ ((exists k, e = EPacket c k) \/ (exists g, e = EOut c g) \/ e = EEnd c))
     \/ nth_error (w_heap w') i = nth_error (w_heap w) i).
  { destruct e as [c k u a|c k|c g|c|c|]; [| | | | |congruence].
    - right. eapply step_other_session; eauto; discriminate.
    - destruct (aget Nat.eqb c (w_conns w)) as [j|] eqn:Ec; [destruct (Nat.eq_dec j i) as [->|Hne]|].
      + left. exists c. eauto.
      + right. eapply step_other_session; eauto; try discriminate. intros c0 k0 E0. inv E0. congruence.
      + right. eapply step_other_session; eauto; try discriminate. intros c0 k0 E0. inv E0. congruence.
    - destruct (aget Nat.eqb c (w_conns w)) as [j|] eqn:Ec; [destruct (Nat.eq_dec j i) as [->|Hne]|].
      + left. exists c. eauto.
      + right. eapply step_other_session; eauto; try discriminate. intros c0 k0 E0. inv E0. congruence.
      + right. eapply step_other_session; eauto; try discriminate. intros c0 k0 E0. inv E0. congruence.
    - destruct (aget Nat.eqb c (w_conns w)) as [j|] eqn:Ec; [destruct (Nat.eq_dec j i) as [->|Hne]|].
      + left. exists c. eauto.
      + right. eapply step_other_session; eauto; try discriminate. intros c0 E0. inv E0. congruence.
      + right. eapply step_other_session; eauto; try discriminate. intros c0 E0. inv E0. congruence.
    - right. eapply step_other_session; eauto; discriminate. }
  destruct Hcase as [(c & Hc & Hev)|Heq]; [|rewrite Heq, Hi in Hi'; injection Hi' as <-; apply Hsub].
  assert (Hsv : serves w c i s) by (split; auto).
  destruct Hev as [[k ->]|[[g ->]| ->]].
  - destruct (is_subscription_change k) eqn:Ek.
    + (* the store was written *)
      destruct k; try discriminate; rewrite (step_packet _ _ _ i s) in H by (auto; discriminate); unfold packet_step in H; simpl in H.
      * destruct (handle_subscribe _ s (w_broker w)) as [[r s2] b2] eqn:Eh.
        assert (Hs2 : exists x, r = Ok x /\ se_client_id s2 = se_client_id s).
        { unfold handle_subscribe in Eh. destruct (subscribe_loop _ _ _) as [[rs subs] b3]. inv Eh. eauto. }
        destruct Hs2 as (x & -> & Hid2). injection H as <- <-.
        assert (Hi2 : nth_error (w_heap (put_session i s2 (set_broker b2 w))) i = Some s2) by (eapply put_same; simpl; eauto).
        simpl in Hi', Hi2. rewrite Hi2 in Hi'. injection Hi' as <-.
        unfold mem_load_session, w_store in Hst'. simpl in Hst'. rewrite Hid2, Hid, aget_put_same in Hst' by apply beqb_spec.
        injection Hst' as <-. reflexivity || (unfold subscribed; simpl; unfold subscription_filters; tauto).
      * destruct (handle_unsubscribe _ s) as [r s2] eqn:Eh.
        assert (Hs2 : exists x, r = Ok x /\ se_client_id s2 = se_client_id s).
        { unfold handle_unsubscribe in Eh. destruct (unsubscribe_loop _ _) as [rs subs]. inv Eh. eauto. }
        destruct Hs2 as (x & -> & Hid2). injection H as <- <-.
        assert (Hi2 : nth_error (w_heap (put_session i s2 (set_broker (w_broker w) w))) i = Some s2) by (eapply put_same; simpl; eauto).
        simpl in Hi', Hi2. rewrite Hi2 in Hi'. injection Hi' as <-.
        unfold mem_load_session, w_store in Hst'. simpl in Hst'. rewrite Hid2, Hid, aget_put_same in Hst' by apply beqb_spec.
        injection Hst' as <-. reflexivity || (unfold subscribed; simpl; unfold subscription_filters; tauto).
    + rewrite Hsub. inversion Hch as [e0 s0|c0 k0 u a resume s0|c0 k0 s0 s1 b1 r Hd Hs Hpi|c0 k0 s0 s1 b1 er Hd Hs Hpi|c0 d s0|c0 g s0 s1 r Hs Hpo|c0 s0]; subst; try tauto.
      * symmetry. eapply packet_keys; eauto.
      * symmetry. apply (packet_keys _ _ _ _ _ _ _ f Hpi Ek).
  - rewrite Hsub. inversion Hch as [e0 s0|c0 k0 u a resume s0|c0 k0 s0 s1 b1 r Hd Hs Hpi|c0 k0 s0 s1 b1 er Hd Hs Hpi|c0 d s0|c0 g0 s0 s1 r Hs Hpo|c0 s0]; subst; try tauto.
    symmetry. apply (process_outgoing_keys _ _ _ _ _ Hpo).
  - rewrite Hsub. inversion Hch; subst; tauto.
Qed.
