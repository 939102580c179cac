(** A filter that a client has given up, while handlers interleave. *)
From Verif Require Import Base Utf8 Codec SpecCodec Tac CodecFacts Maps Topic SpecTopic TopicFacts Property PacketProps Packets TopicTree TreeFacts Storage SpecStorage StorageFacts
  Broker Auth Session SessionFacts Server SpecServer ServerFacts HandlerFacts OutputFacts Conc ConcFacts ConcLocks ConcRoute SpecConc ConcOwn ConcDeliver ConcProv SpecDurable ConcStore SpecLives ConcLives SpecUnsub.

Lemma new_came {st0} cfg tr x d id j s : mruns cfg (conf_on st0) tr x -> In (IStep d (ONew id j s)) tr -> came d id tr /\ created j id tr.
Proof.
  intros Hr Hin. split; [|exists d, s; exact Hin]. apply in_split in Hin. destruct Hin as (a & b & ->). apply mruns_app in Hr. destruct Hr as (y & Hy & Hyx).
  inversion Hyx as [|? m x1 ? ? ? Hm _]; subst. apply mstep_inv in Hm.
  destruct Hm as [(e & -> & E & _)|[(c & -> & E & _)|(c & k & o & k1 & -> & E & Ha & Hn & _)]]; try discriminate. injection E as <- <-.
  pose proof (own_runs _ _ _ _ Hy [] own_new) as Hi. destruct (within_next _ _ _ _ _ _ (oi_tasks _ _ Hi _ _ Ha) Hn) as [_ H]. cbn in H. apply came_app, H.
Qed.

Lemma conns_other c d o w : d <> c -> aget Nat.eqb c (w_conns (apply d o w)) = aget Nat.eqb c (w_conns w).
Proof.
  intros Hd. destruct o; try reflexivity; cbn; [rewrite (aget_aput Nat.eqb Nat.eqb_eq)|rewrite (aget_adel Nat.eqb Nat.eqb_eq)]; (destruct (Nat.eqb c d) eqn:E; [apply Nat.eqb_eq in E; congruence|reflexivity]).
Qed.

Section Filter.
  Context (c : nat) (id f : bytes) (b : bool).
  Definition lacks (s : session) : Prop := aget bytes_eqb f (se_subs s) = None.
  Definition slacks (m : mem_store) : Prop := forall st, mem_load_session id m = Some st -> ~ In f (ss_subscriptions st).
  Definition lres (r : sres) : Prop := forall st, r = RSession (Some st) -> ~ In f (ss_subscriptions st).
  (** [b]: the connection may begin anew *)
  Fixpoint sil (J : nat -> Prop) (k : code) : Prop :=
    match k with
    | Finish => True
    | Emit o k => (forall q, o = Sent c (Publish q) -> pb_topic q = f -> b = true /\ pb_dup q = true) /\ sil J k
    | Send _ _ k | Leave k | Detach k | Acquire _ k | Conc.Release _ k | Forget _ k => sil J k
    | Sess j g => J j /\ forall s n, lacks s -> lacks (fst (g s n)) /\ sil J (snd (g s n))
    | Sub _ k => forall n, sil J (k n)
    | Walk _ k => forall ps, sil J (k ps)
    | Store o k => (forall x st, o = SaveSession x st -> ~ In f (ss_subscriptions st)) /\ (forall x, o = LoadSession x -> x = id) /\ forall r, lres r -> sil J (k r)
    | Find x k => b = true /\ x = id /\ forall r, sil (fun j => J j \/ r = Some j) (k r)
    | New x s k => lacks s /\ forall j, sil (fun i => J i \/ j = i) (k j)
    | Attach j k => J j /\ sil J k
    end.
  Section Codes.
    Context (cfg : config).
    Lemma sil_sends (J : nat -> Prop) ps m k : sil J k -> sil J (sends ps m k).
    Proof. induction ps; simpl; auto. Qed.
    Lemma sil_publish (J : nat -> Prop) t m k : sil J k -> sil J (publish t m k).
    Proof.
      intros H. assert (Hr : sil J (route t m k)) by (simpl; intros ps; apply sil_sends, H).
      unfold publish. destruct (mg_retain m); [destruct (mg_payload m) as [[|]|]|]; cbn [sil]; auto; (split; [discriminate|split; [discriminate|auto]]).
    Qed.
    Lemma sil_id (J : nat -> Prop) i k : J i -> (forall x, sil J (k x)) -> sil J (client_id_of i k).
    Proof. intros Hi H. unfold client_id_of. cbn [sil fst snd]. auto. Qed.
    Lemma sil_end (J : nat -> Prop) i : J i -> sil J (end_code c i).
    Proof.
      intros Hi. unfold end_code. cbn [sil fst snd]. split; [exact Hi|]. intros s n Hs. split; [exact Hs|].
      assert (Hd : sil J (Detach (Emit (Closed c) Finish))) by (split; [discriminate|exact I]). destruct (se_will s) as [x|]; [|exact Hd].
      apply sil_publish. apply sil_id; [exact Hi|]. intros _. apply sil_id; [exact Hi|]. intros x'. cbn [sil]. split; [discriminate|]. split; [discriminate|]. intros _ _. exact Hd.
    Qed.
    Lemma sil_respond (J : nat -> Prop) r : (forall q, r <> Some (Publish q)) -> sil J (respond c r).
    Proof. intros H. destruct r as [x|]; [|exact I]. split; [|exact I]. intros q E. injection E as ->. destruct (H q eq_refl). Qed.
    Lemma lacks_put s g st : g <> f -> lacks s -> lacks (set_subs (aput bytes_eqb g st (se_subs s)) s).
    Proof.
      intros Hg H. unfold lacks in *. cbn [set_subs se_subs]. rewrite aget_aput by apply beqb_spec. destruct (bytes_eqb f g) eqn:E; [|exact H]. apply beqb_spec in E. congruence.
    Qed.
    Lemma sil_one (J : nat -> Prop) i g k : J i -> g <> f -> sil J k -> sil J (subscribe_one i g k).
    Proof.
      intros Hi Hg H. unfold subscribe_one. cbn [sil fst snd]. intros n. split; [discriminate|]. split; [discriminate|]. intros r _. split; [exact Hi|]. intros s n' Hs. split; [|exact H]. apply lacks_put; assumption.
    Qed.
    Lemma sil_sub (J : nat -> Prop) i fs : J i -> ~ In f (map fst fs) -> forall k, (forall rs, sil J (k rs)) -> sil J (subscribe_all i fs k).
    Proof.
      intros Hi. induction fs as [|[g o] fs IH]; intros Hf k H; cbn [subscribe_all]; [apply H|]. cbn [map fst] in Hf. assert (~ In f (map fst fs)) by (intros K; apply Hf; right; exact K).
      destruct (validate_subscribe_filter g); [auto|]. apply sil_one; [exact Hi|intros ->; apply Hf; left; reflexivity|]. auto.
    Qed.
    Lemma lacks_filters s : lacks s -> ~ In f (subscription_filters s).
    Proof. intros H Hi. apply (aget_some_key bytes_eqb beqb_spec) in Hi. destruct Hi as (st & Hi). unfold lacks in H. congruence. Qed.
    Lemma sil_save (J : nat -> Prop) i k : J i -> sil J k -> sil J (save_subscriptions i k).
    Proof.
      intros Hi H. apply sil_id; [exact Hi|]. intros x. cbn [sil fst snd]. split; [exact Hi|]. intros s _ Hs. split; [exact Hs|].
      split; [intros y st E; injection E as <- <-; apply lacks_filters, Hs|]. split; [discriminate|]. auto.
    Qed.
    Lemma sil_remove (J : nat -> Prop) i n k : J i -> sil J k -> sil J (remove_inflight i n k).
    Proof. intros Hi H. apply sil_id; [exact Hi|]. intros x. cbn [sil]. split; [discriminate|]. split; [discriminate|]. auto. Qed.
    Lemma sil_simple (J : nat -> Prop) i h after : J i -> (forall s, se_subs (snd (h s)) = se_subs s) -> (forall s r q, fst (h s) = Ok r -> r <> Some (Publish q)) ->
      (forall k, sil J k -> sil J (after k)) -> sil J (simple_code c i h after).
    Proof.
      intros Hi Hs Hq Ha. unfold simple_code. cbn [sil]. split; [exact Hi|]. intros s n H. specialize (Hs s). specialize (Hq s). destruct (h s) as [[r| |] s1]; cbn [fst snd] in *;
        (split; [unfold lacks; rewrite Hs; exact H|]); [apply Ha, sil_respond; intros q; apply Hq; reflexivity|apply sil_end, Hi|split; [discriminate|exact I]].
    Qed.
    Lemma unsub_none fs : forall subs, aget bytes_eqb f subs = None -> aget bytes_eqb f (snd (unsubscribe_loop fs subs)) = None.
    Proof.
      induction fs as [|g fs IH]; intros subs H; cbn [unsubscribe_loop]; [exact H|]. cbv zeta. specialize (IH (adel bytes_eqb g subs)).
      destruct (unsubscribe_loop fs (adel bytes_eqb g subs)) as [rs subs']. cbn [snd] in *. apply IH. rewrite aget_adel by apply beqb_spec. destruct (bytes_eqb f g); [reflexivity|exact H].
    Qed.
    Lemma unsub_in fs : forall subs, In f fs -> aget bytes_eqb f (snd (unsubscribe_loop fs subs)) = None.
    Proof.
      induction fs as [|g fs IH]; intros subs [].
      - subst g. cbn [unsubscribe_loop]. cbv zeta. pose proof (unsub_none fs (adel bytes_eqb f subs)) as H. destruct (unsubscribe_loop fs (adel bytes_eqb f subs)). cbn [snd] in *. apply H.
        rewrite aget_adel by apply beqb_spec. destruct (bytes_eqb f f) eqn:E; [reflexivity|]. assert (bytes_eqb f f = true) by (apply beqb_spec; reflexivity). congruence.
      - cbn [unsubscribe_loop]. cbv zeta. specialize (IH (adel bytes_eqb g subs) ltac:(assumption)). destruct (unsubscribe_loop fs (adel bytes_eqb g subs)). exact IH.
    Qed.
    Lemma sil_packet (J : nat -> Prop) i k : J i -> (forall p, k = Subscribe p -> ~ In f (map fst (sb_payload p))) -> sil J (packet_code cfg c i k).
    Proof.
      intros Hi Hc. destruct k as [k|k|p|a|a|a|a|p|k|p|k| | |d|a]; cbn [packet_code]; try (apply sil_end, Hi).
      - unfold publish_code. destruct (validate_publish_topic _); [apply sil_end, Hi|].
        assert (Hgo : forall r, (forall q, r <> Some (Some (Publish q))) -> sil J (publish (pb_topic p) (message_of p) (match r with Some x => respond c x | None => end_code c i end))).
        { intros r Hq. apply sil_publish. destruct r; [apply sil_respond; intros q E; apply (Hq q); congruence|apply sil_end, Hi]. }
        destruct (pb_qos p); [|destruct (pb_packet_id p) as [n|] eqn:E|destruct (pb_packet_id p) as [n|] eqn:E|];
          try first [apply (Hgo None); discriminate|apply (Hgo (Some None)); discriminate|apply (Hgo (Some (Some _))); discriminate].
        split; [exact Hi|]. intros s n' Hs. cbn [fst snd]. split; [exact Hs|apply (Hgo (Some (Some _))); discriminate].
      - apply sil_simple; [exact Hi|reflexivity|cbn; congruence|auto using sil_remove].
      - apply sil_simple; [exact Hi|reflexivity|cbn; congruence|auto].
      - apply sil_simple; [exact Hi|reflexivity|cbn; congruence|auto].
      - apply sil_simple; [exact Hi|reflexivity|cbn; congruence|auto using sil_remove].
      - split; [exact Hi|]. intros s n Hs. cbn [fst snd]. split; [exact Hs|]. apply sil_sub; [exact Hi|apply Hc; reflexivity|].
        intros rs. match goal with |- sil J (Conc.Release _ ?z) => change (sil J z) end. apply sil_save; [exact Hi|]. split; [discriminate|exact I].
      - split; [exact Hi|]. intros s n Hs. pose proof (unsub_none (us_payload p) (se_subs s) Hs) as Hu. destruct (unsubscribe_loop (us_payload p) (se_subs s)) as [rs subs]. cbn [fst snd] in *.
        split; [exact Hu|]. apply sil_save; [exact Hi|]. split; [discriminate|exact I].
      - apply sil_respond. discriminate.
      - split; [exact Hi|]. intros s n Hs. cbn [fst snd]. split; [exact Hs|]. apply sil_id; [exact Hi|]. intros x. cbn [sil]. split; [discriminate|]. split; [discriminate|]. intros. apply sil_end, Hi.
      - apply sil_simple; [exact Hi| | |auto].
        + intros s. apply auth_same.
        + intros s r q E Hq. subst r. revert E. unfold handle_auth. destruct (sv_manager cfg); [|discriminate]. repeat case_match; discriminate.
    Qed.
    Lemma sil_emits (J : nat -> Prop) infl k : b = true -> sil J k -> sil J (emits (map (fun x => Sent c (Publish (retry_publish x))) infl) k).
    Proof. intros Hb H. induction infl; cbn; auto. split; [|exact IHinfl]. intros q E. injection E as <-. intros _. split; [exact Hb|reflexivity]. Qed.
    Lemma sil_restore (J : nat -> Prop) i subs wl infl : b = true -> J i -> ~ In f subs -> sil J (restore_code c i subs wl infl).
    Proof.
      intros Hb Hi Hf. unfold restore_code. cbv zeta. set (rest := emits _ _). assert (Hr : sil J rest) by (apply sil_emits; [exact Hb|]; split; [exact Hi|exact I]).
      set (wills := match wl with Some x => _ | None => _ end).
      assert (Hw : sil J wills) by (unfold wills; destruct wl; [|exact Hr]; split; [exact Hi|]; intros s n Hs; cbn [fst snd]; split; [exact Hs|exact Hr]).
      destruct subs as [|g fs]; [exact Hw|]. change (sil J (restore_all i (g :: fs) (Conc.Release (LSession i) wills))).
      revert Hf. induction (g :: fs) as [|h l IH]; intros Hf; cbn [restore_all]; [exact Hw|]. apply sil_one; [exact Hi|intros ->; apply Hf; left; reflexivity|]. apply IH. intros K. apply Hf. right. exact K.
    Qed.
    Lemma sil_begin (J : nat -> Prop) i u a r subs wl infl : b = true -> J i -> ~ In f subs -> sil J (begin_code c i u a r subs wl infl).
    Proof.
      intros Hb Hi Hf. unfold begin_code. cbn [sil]. split; [exact Hi|]. intros s n Hs. assert (Hg : lacks (snd (begin u r s)) /\ forall q, fst (begin u r s) <> Publish q) by (unfold begin; repeat case_match; split; try exact Hs; try discriminate; intros q; discriminate).
      destruct (begin u r s) as [ack t]. cbn [fst snd] in *. destruct Hg as [Hg Hq]. split; [exact Hg|]. destruct a; [|split; [discriminate|exact I]]. cbn [sil].
      split; [intros q E; injection E as ->; destruct (Hq q eq_refl)|]. apply sil_id; [exact Hi|]. intros x. cbn [sil fst snd].
      split; [intros y st E; injection E as <- <-; exact Hf|]. split; [discriminate|]. intros _ _. split; [exact Hi|]. intros s1 _ H1. split; [exact H1|]. cbv zeta.
      destruct (se_will s1); cbn [sil]; [split; [discriminate|split; [discriminate|intros _ _]]|]; apply sil_restore; assumption.
    Qed.
    Lemma sil_connect (J : nat -> Prop) k u a : b = true -> presented k = id -> sil J (connect_code cfg c k u a).
    Proof.
      intros Hb Hp. unfold connect_code. destruct (negb _); [split; [discriminate|split; [discriminate|exact I]]|]. cbv zeta.
      assert (Hg : forall J r subs wl infl, ~ In f subs -> sil J (enter_code k (fun i => begin_code c i u a r subs wl infl))).
      { intros J' r subs wl infl Hl. unfold enter_code. cbv zeta. cbn [sil]. split; [exact Hb|]. split; [exact Hp|]. intros [i|].
        - split; [right; reflexivity|]. intros s n Hs. cbn [fst snd]. split; [exact Hs|]. apply sil_begin; [exact Hb|right; reflexivity|exact Hl].
        - split; [reflexivity|]. intros i. apply sil_begin; [exact Hb|right; reflexivity|exact Hl]. }
      match goal with |- sil J (Acquire _ ?z) => change (sil J z) end.
      destruct (cf_clean_start _).
      - cbn [sil]. split; [discriminate|]. split; [discriminate|]. intros _ _. split; [discriminate|]. split; [discriminate|]. intros _ _. apply Hg. intros [].
      - cbn [sil]. split; [exact Hb|]. split; [exact Hp|]. intros [i|]; [apply Hg; intros []|]. cbn [sil]. split; [discriminate|]. split; [intros x E; injection E as <-; exact Hp|].
        intros r Hr. destruct r as [| [st|] | | | | |]; try (apply Hg; intros []; fail).
        cbn [sil]. split; [discriminate|]. split; [discriminate|]. intros rw _. split; [discriminate|]. split; [discriminate|]. intros ri _. apply Hg, Hr. reflexivity.
    Qed.
    Lemma lacks_out g s n r s' : lacks s -> process_outgoing g s (Mk_broker n mem_new) = Some (r, s') -> lacks s' /\ g <> f /\ forall p, r = Ok p -> pb_topic p = g.
    Proof.
      intros Hs H. unfold process_outgoing in H. destruct (aget bytes_eqb g (se_subs s)) as [st|] eqn:Est; [|discriminate]. assert (Hg : g <> f) by (intros ->; unfold lacks in Hs; congruence).
      destruct (stream_next _ st) as [[m st']|]; [|discriminate]. pose proof (lacks_put s g st' Hg Hs) as H1.
      destruct (mg_packet_id m) as [i|]; [destruct (mg_qos m)|]; inversion H; subst r s'; (split; [exact H1|]); (split; [exact Hg|]); intros p E; try discriminate; injection E as <-; reflexivity.
    Qed.
    Lemma sil_out (J : nat -> Prop) i g : J i -> sil J (out_code c i g).
    Proof.
      intros Hi. unfold out_code. cbn [sil]. split; [exact Hi|]. intros s n Hs. destruct (process_outgoing g s _) as [[r s']|] eqn:E; [|cbn [fst snd sil]; auto].
      destruct (lacks_out _ _ _ _ _ Hs E) as (H1 & H2 & H3). destruct r as [p| |]; cbn [fst snd]; (split; [exact H1|]); try (split; [discriminate|exact I]).
      specialize (H3 p eq_refl). assert (He : sil J (Emit (Sent c (Publish p)) Finish)) by (split; [|exact I]; intros q Eq Ht; injection Eq as <-; congruence).
      destruct (pb_packet_id p) as [pid|]; [|exact He]. destruct (pb_qos p); try exact He; (apply sil_id; [exact Hi|]); intros x; cbn [sil]; (split; [discriminate|]); (split; [discriminate|]); intros _ _; exact He.
    Qed.
    Lemma sil_handler (J : nat -> Prop) sv e : event_conn e = c -> (forall i, sv = Some i -> J i) -> (forall p, e = EPacket c (Subscribe p) -> ~ In f (map fst (sb_payload p))) ->
      (forall k u a, e = EFirst c k u a -> b = true) -> (forall k u a, e = EFirst c (Some (Connect k)) u a -> presented k = id) -> sil J (handler cfg sv e).
    Proof.
      intros E Hsv Hf Hb Hp. destruct e as [d [[]|] u a|d k|d g|d|d|]; simpl in E; subst; destruct sv as [i|]; try exact I; cbn [handler]; try (split; [discriminate|exact I]).
      - apply sil_connect; [eapply Hb; reflexivity|eapply Hp; reflexivity].
      - apply sil_packet; [apply Hsv; reflexivity|]. intros p ->. apply Hf. reflexivity.
      - apply sil_out, Hsv. reflexivity.
      - apply sil_end, Hsv. reflexivity.
    Qed.
  End Codes.

  (** ** Runs *)
  Context (M : nat -> Prop).
  Definition fair_item (i : item) : Prop :=
    match i with
    | IStart e => (forall p, e = EPacket c (Subscribe p) -> ~ In f (map fst (sb_payload p))) /\ (forall k u a, e = EFirst c k u a -> b = true)
        /\ (forall k u a, e = EFirst c (Some (Connect k)) u a -> presented k = id)
    | IStep d (OSess j _ _) => d <> c -> ~ M j
    | IStep d (OStore o _) => d <> c -> key o <> Some id
    | IStep d (ONew x j _) => (d <> c -> x <> id /\ ~ M j) /\ (d = c -> M j)
    | _ => True
    end.
  Definition pure (J : nat -> Prop) (w : world) : Prop :=
    (forall j, J j -> M j) /\ (forall j s, J j -> nth_error (w_heap w) j = Some s -> lacks s) /\ (forall j, aget Nat.eqb c (w_conns w) = Some j -> J j)
    /\ (b = true -> forall j, aget bytes_eqb id (w_manager w) = Some j -> J j) /\ slacks (w_store w).
  Lemma keyless_sessions o m : key o <> Some id -> mem_load_session id (snd (mem_step m o)) = mem_load_session id m.
  Proof.
    intros H. unfold mem_load_session. destruct o as [x st|x|x| |t [y|]|g| |x y|x|x|x pid y|x pid|x pid|x]; cbn [mem_step fst snd key] in *; try reflexivity.
    - cbn. rewrite aget_aput by apply beqb_spec. destruct (bytes_eqb id x) eqn:E; [apply beqb_spec in E; congruence|reflexivity].
    - cbn. rewrite aget_adel by apply beqb_spec. destruct (bytes_eqb id x) eqn:E; [apply beqb_spec in E; congruence|reflexivity].
    - unfold mem_remove_inflight. destruct (aget bytes_eqb x (ms_inflight m)); reflexivity.
  Qed.
  Lemma slacks_step o m : (forall x st, o = SaveSession x st -> ~ In f (ss_subscriptions st)) -> slacks m -> slacks (snd (mem_step m o)).
  Proof.
    intros H Hm st E. destruct o as [x st'|x|x| |t [y|]|g| |x y|x|x|x pid y|x pid|x pid|x]; cbn [mem_step fst snd] in *; try (apply Hm; exact E); unfold mem_load_session in E; cbn in E.
    - rewrite aget_aput in E by apply beqb_spec. destruct (bytes_eqb id x); [|apply Hm; exact E]. injection E as <-. eapply H. reflexivity.
    - rewrite aget_adel in E by apply beqb_spec. destruct (bytes_eqb id x); [discriminate|apply Hm; exact E].
    - unfold mem_remove_inflight in E. destruct (aget bytes_eqb x (ms_inflight m)); apply Hm; exact E.
  Qed.
  Lemma pure_other J d o w : d <> c -> fair_item (IStep d o) -> pure J w -> (forall j s s', o = OSess j s s' -> nth_error (w_heap w) j = Some s) -> (forall x j s, o = ONew x j s -> j = length (w_heap w)) -> pure J (apply d o w).
  Proof.
    intros Hd Hf (P1 & P2 & P3 & P4 & P5) Hs Hn. split; [exact P1|]. destruct o as [o|j s s'|g n|t ps|p m| |o r|x r|x|x j s|j| |l|l]; cbn [apply fair_item] in *; try (repeat split; assumption).
    - split; [|repeat split; assumption]. intros j0 s0 Hj. unfold put_session, set_heap. cbn [w_heap]. destruct (Nat.eq_dec j0 j) as [->|Hne]; [destruct (Hf Hd); auto|]. rewrite list_set_other by auto. apply P2, Hj.
    - split; [exact P2|]. split; [exact P3|]. split; [exact P4|]. intros st E. apply P5. rewrite <- (keyless_sessions o); [exact E|auto].
    - split; [exact P2|]. split; [exact P3|]. split; [|exact P5]. intros Hb j. cbn. rewrite aget_adel by apply beqb_spec. destruct (bytes_eqb id x); [discriminate|auto].
    - destruct Hf as [Hf _]. destruct (Hf Hd) as [F1 F2]. split; [|split; [exact P3|split; [|exact P5]]].
      + intros j0 s0 Hj. unfold set_manager, set_heap. cbn [w_heap]. intros E. destruct (Nat.lt_ge_cases j0 (length (w_heap w))) as [Hl|Hl]; [rewrite nth_error_app1 in E by exact Hl; eapply P2; eauto|].
        rewrite nth_error_app2 in E by exact Hl. rewrite (Hn _ _ _ eq_refl) in F2. destruct (j0 - length (w_heap w))%nat as [|q] eqn:Eq; simpl in E; [|destruct q; discriminate].
        destruct F2. apply P1. replace (length (w_heap w)) with j0 by lia. exact Hj.
      + intros Hb j0. cbn. rewrite aget_aput by apply beqb_spec. destruct (bytes_eqb id x) eqn:E; [apply beqb_spec in E; congruence|auto].
    - split; [exact P2|]. split; [|split; assumption]. intros j0. cbn. rewrite (aget_aput Nat.eqb Nat.eqb_eq). destruct (Nat.eqb c d) eqn:E; [apply Nat.eqb_eq in E; congruence|apply P3].
    - split; [exact P2|]. split; [|split; assumption]. intros j0. cbn. rewrite (aget_adel Nat.eqb Nat.eqb_eq). destruct (Nat.eqb c d); [discriminate|apply P3].
  Qed.
  Lemma next_sess k w o k1 : next k w = Some (o, k1) -> (forall j s s', o = OSess j s s' -> nth_error (w_heap w) j = Some s) /\ (forall x j s, o = ONew x j s -> j = length (w_heap w)).
  Proof.
    intros E. destruct k; cbn [Conc.next] in E; try discriminate; try (injection E as <- <-; split; intros; congruence).
    destruct (nth_error (w_heap w) i) as [s|] eqn:Ei; [|discriminate]. destruct (f0 s _). injection E as <- <-. split; intros; congruence.
  Qed.
  Lemma pure_own J k w o k1 : sil J k -> pure J w -> fair_item (IStep c o) -> next k w = Some (o, k1) ->
    (exists J1, pure J1 (apply c o w) /\ sil J1 k1) /\ (forall q, o = OOut (Sent c (Publish q)) -> pb_topic q = f -> b = true /\ pb_dup q = true).
  Proof.
    intros Hk (P1 & P2 & P3 & P4 & P5) Hf E. assert (Hp : pure J w) by (repeat split; assumption).
    destruct k; cbn [Conc.next sil] in *; try discriminate; try (injection E as <- <-; (split; [|discriminate]); exists J; (split; [exact Hp|apply Hk]); fail).
    - injection E as <- <-. split; [exists J; split; [exact Hp|apply Hk]|]. intros q Eq. injection Eq as ->. apply Hk. reflexivity.
    - destruct (nth_error (w_heap w) i) as [s|] eqn:Ei; [|discriminate]. destruct Hk as [Hi Hk]. destruct (Hk s (bk_tree (w_broker w)) (P2 _ _ Hi Ei)) as [H1 H2]. destruct (f0 s _) as [s' k']. injection E as <- <-.
      cbn [fst snd] in *. split; [|discriminate]. exists J. split; [|exact H2]. split; [exact P1|]. cbn [apply]. split; [|repeat split; assumption].
      intros j s1 Hj. unfold put_session, set_heap. cbn [w_heap]. intros Hjs. destruct (Nat.eq_dec j i) as [->|Hd].
      + rewrite list_set_same in Hjs by (apply nth_error_Some; congruence). injection Hjs as <-. exact H1.
      + rewrite list_set_other in Hjs by auto. eapply P2; eauto.
    - injection E as <- <-. destruct Hk as (H1 & H2 & H3). split; [|discriminate]. exists J. split.
      + split; [exact P1|]. cbn [apply]. split; [exact P2|]. split; [exact P3|]. split; [exact P4|]. apply slacks_step; assumption.
      + apply H3. intros st Er. destruct o0 as [x st'|x|x| |t [y|]|g| |x y|x|x|x pid y|x pid|x pid|x]; cbn in Er; try discriminate. injection Er as Er. rewrite (H2 x eq_refl) in Er. apply P5, Er.
    - injection E as <- <-. destruct Hk as (Hb & -> & H). split; [|discriminate]. exists (fun j => J j \/ aget bytes_eqb id (w_manager w) = Some j). split; [|apply H].
      split; [intros j [Hj|Hj]; auto|]. split; [intros j s [Hj|Hj]; eauto|]. split; [intros j Hj; left; auto|]. split; [intros _ j Hj; right; exact Hj|exact P5].
    - injection E as <- <-. split; [|discriminate]. exists J. split; [|exact Hk]. split; [exact P1|]. cbn [apply]. split; [exact P2|]. split; [exact P3|]. split; [|exact P5].
      intros Hb j. cbn. rewrite aget_adel by apply beqb_spec. destruct (bytes_eqb id _); [discriminate|auto].
    - injection E as <- <-. destruct Hk as [Hl Hk]. cbn [fair_item] in Hf. destruct Hf as [_ Hf]. specialize (Hf eq_refl). split; [|discriminate]. exists (fun j => J j \/ length (w_heap w) = j). split; [|apply Hk].
      split; [intros j [Hj|<-]; [apply P1, Hj|exact Hf]|]. cbn [apply]. split; [|split; [intros j Hj; left; apply P3, Hj|split; [|exact P5]]].
      + intros j s1 Hj. unfold set_manager, set_heap. cbn [w_heap]. intros Ej. destruct (Nat.lt_ge_cases j (length (w_heap w))) as [Hlt|Hge].
        * rewrite nth_error_app1 in Ej by exact Hlt. destruct Hj as [Hj|Hj]; [eapply P2; eauto|lia].
        * rewrite nth_error_app2 in Ej by exact Hge. destruct (j - length (w_heap w))%nat as [|q]; simpl in Ej; [injection Ej as <-; exact Hl|destruct q; discriminate].
      + intros Hb j. cbn. rewrite aget_aput by apply beqb_spec. destruct (bytes_eqb id _); [intros Ej; injection Ej as <-; right; reflexivity|intros Ej; left; auto].
    - injection E as <- <-. destruct Hk as [Hj Hk]. split; [|discriminate]. exists J. split; [|exact Hk]. split; [exact P1|]. cbn [apply]. split; [exact P2|]. split; [|split; assumption].
      intros j. cbn. rewrite (aget_aput Nat.eqb Nat.eqb_eq), Nat.eqb_refl. intros Ej. injection Ej as <-. exact Hj.
    - injection E as <- <-. split; [|discriminate]. exists J. split; [|exact Hk]. split; [exact P1|]. cbn [apply]. split; [exact P2|]. split; [|split; assumption].
      intros j. cbn. rewrite (aget_adel Nat.eqb Nat.eqb_eq), Nat.eqb_refl. discriminate.
  Qed.
  Definition silent (x : conf) : Prop := exists J, pure J (cn_world x) /\ forall k, aget Nat.eqb c (cn_tasks x) = Some k -> sil J k.
  Lemma silent_step cfg x m y i : mstep cfg x m = Some (y, i) -> fair_item i -> silent x ->
    silent y /\ forall q, i = IStep c (OOut (Sent c (Publish q))) -> pb_topic q = f -> b = true /\ pb_dup q = true.
  Proof.
    intros Hm Hf (J & Hp & Hk). apply mstep_inv in Hm.
    destruct Hm as [(e & -> & -> & He & Ha & ->)|[(d & -> & -> & Ha & ->)|(d & k & o & k1 & -> & -> & Ha & Hx & Hy & ->)]].
    - split; [|discriminate]. exists J. split; [exact Hp|]. cbn [cn_tasks]. intros k. rewrite (aget_aput Nat.eqb Nat.eqb_eq). destruct (Nat.eqb c (event_conn e)) eqn:E; [|apply Hk].
      apply Nat.eqb_eq in E. intros Ek. injection Ek as <-. destruct Hf as (F1 & F2 & F3). apply sil_handler; auto. rewrite <- E. apply Hp.
    - split; [|discriminate]. exists J. split; [exact Hp|]. cbn [cn_tasks]. intros k. rewrite (aget_adel Nat.eqb Nat.eqb_eq). destruct (Nat.eqb c d); [discriminate|apply Hk].
    - destruct (next_sess _ _ _ _ Hx) as [N1 N2]. destruct (Nat.eq_dec d c) as [->|Hd].
      + destruct (pure_own J _ _ _ _ (Hk _ Ha) Hp Hf Hx) as [(J1 & H1 & H2) H3]. split.
        * exists J1. split; [exact H1|]. cbn [cn_tasks]. intros k2. rewrite (aget_aput Nat.eqb Nat.eqb_eq), Nat.eqb_refl. intros E. injection E as <-. exact H2.
        * intros q E. injection E as ->. apply H3. reflexivity.
      + split; [|intros q E; congruence]. exists J. split; [apply pure_other; assumption|]. cbn [cn_tasks]. intros k2. rewrite (aget_aput Nat.eqb Nat.eqb_eq).
        destruct (Nat.eqb c d) eqn:E; [apply Nat.eqb_eq in E; congruence|apply Hk].
  Qed.
  Lemma silent_runs cfg x tr y : mruns cfg x tr y -> Forall fair_item tr -> silent x ->
    silent y /\ forall q, In (IStep c (OOut (Sent c (Publish q)))) tr -> pb_topic q = f -> b = true /\ pb_dup q = true.
  Proof.
    induction 1 as [x|x m x1 i tr x2 Hm Hr IH]; intros Hf H; [split; [exact H|intros q []]|]. inversion Hf as [|? ? Hf1 Hf2]; subst. destruct (silent_step _ _ _ _ _ Hm Hf1 H) as [H1 H2].
    destruct (IH Hf2 H1) as [H3 H4]. split; [exact H3|]. intros q [E|Hq]; [apply (H2 q E)|apply (H4 q Hq)].
  Qed.
  Lemma silent_on st : slacks st -> silent (conf_on st).
  Proof. intros H. exists (fun _ => False). split; [|discriminate]. split; [intros j []|]. split; [intros j s []|]. split; [discriminate|]. split; [discriminate|exact H]. Qed.

  (** ** The handler of the UNSUBSCRIBE *)
  (** the session has given [f] up, and the list without it is stored before anything is said *)
  Fixpoint saving (J : nat -> Prop) (k : code) : Prop :=
    match k with
    | Sess j g => J j /\ forall s n, lacks s -> lacks (fst (g s n)) /\ saving J (snd (g s n))
    | Store o k => (exists x st, o = SaveSession x st /\ ~ In f (ss_subscriptions st)) /\ forall r, sil J (k r)
    | _ => False
    end.
  Definition leaving (i : nat) (k : code) : Prop :=
    match k with
    | Sess j g => j = i /\ forall s n, lacks (fst (g s n)) /\ saving (eq i) (snd (g s n))
    | _ => False
    end.
  Lemma leaving_unsubscribe i p : In f (us_payload p) -> leaving i (unsubscribe_code c i p).
  Proof.
    intros Hf. split; [reflexivity|]. intros s n. pose proof (unsub_in (us_payload p) (se_subs s) Hf) as Hu. destruct (unsubscribe_loop (us_payload p) (se_subs s)) as [rs subs]. cbn [fst snd] in *.
    split; [exact Hu|]. unfold save_subscriptions, client_id_of. cbn [saving fst snd]. split; [reflexivity|]. intros s1 _ H1. split; [exact H1|]. split; [reflexivity|]. intros s2 _ H2. split; [exact H2|].
    split; [do 2 eexists; split; [reflexivity|]; apply lacks_filters, H2|]. intros r. split; [discriminate|exact I].
  Qed.
  Definition giving_up (x : conf) : Prop := exists i k, aget Nat.eqb c (cn_tasks x) = Some k /\ M i /\ (forall j, aget Nat.eqb c (w_conns (cn_world x)) = Some j -> j = i)
    /\ (forall j, aget bytes_eqb id (w_manager (cn_world x)) = Some j -> j = i)
    /\ (i < length (w_heap (cn_world x)))%nat /\ (leaving i k \/ (saving (eq i) k /\ forall s, nth_error (w_heap (cn_world x)) i = Some s -> lacks s)).
  Definition own_save (i : item) : Prop := forall x st r, i = IStep c (OStore (SaveSession x st) r) -> x = id.
  Lemma manager_other d o w i : d <> c -> fair_item (IStep d o) -> (forall j, aget bytes_eqb id (w_manager w) = Some j -> j = i) -> forall j, aget bytes_eqb id (w_manager (apply d o w)) = Some j -> j = i.
  Proof.
    intros Hd Hf H j. destruct o as [o|j' s s'|g q|t ps|p q| |o r|z r|z|z j' s|j'| |l|l]; try apply H; cbn; cbn [fair_item] in Hf.
    - rewrite aget_adel by apply beqb_spec. destruct (bytes_eqb id z); [discriminate|apply H].
    - rewrite aget_aput by apply beqb_spec. destruct (bytes_eqb id z) eqn:E; [apply beqb_spec in E; destruct Hf as [Hf _]; destruct (Hf Hd); congruence|apply H].
  Qed.
  Lemma heap_other d o w i : d <> c -> M i -> fair_item (IStep d o) -> (i < length (w_heap w))%nat -> nth_error (w_heap (apply d o w)) i = nth_error (w_heap w) i.
  Proof.
    intros Hd Hi Hf Hl. destruct o; try reflexivity; cbn [apply fair_item] in *.
    - unfold put_session, set_heap. cbn [w_heap]. destruct (Nat.eq_dec i i0) as [->|]; [destruct (Hf Hd Hi)|]. apply list_set_other. auto.
    - unfold set_manager, set_heap. cbn [w_heap]. apply nth_error_app1. exact Hl.
  Qed.
  Lemma giving_step cfg x m y i : mstep cfg x m = Some (y, i) -> fair_item i -> own_save i -> giving_up x ->
    (giving_up y /\ i <> IEnd c /\ forall o, i <> IStep c (OOut o)) \/ silent y.
  Proof.
    intros Hm Hf Ho (n & kc & Hc & HM & Hcn & Hmg & Hlen & Hk). apply mstep_inv in Hm.
    destruct Hm as [(e & -> & -> & He & Ha & ->)|[(d & -> & -> & Ha & ->)|(d & k & o & k1 & -> & -> & Ha & Hx & Hy & ->)]].
    - left. split; [|split; discriminate]. exists n, kc. cbn [cn_tasks cn_world]. rewrite (aget_aput Nat.eqb Nat.eqb_eq). destruct (Nat.eqb c (event_conn e)) eqn:E; [apply Nat.eqb_eq in E; congruence|]. auto 8.
    - assert (Hne : d <> c) by (intros ->; rewrite Ha in Hc; injection Hc as <-; destruct Hk as [Hk|[Hk _]]; exact Hk). left. split; [|split; congruence].
      exists n, kc. cbn [cn_tasks cn_world]. rewrite (aget_adel Nat.eqb Nat.eqb_eq). destruct (Nat.eqb c d) eqn:E; [apply Nat.eqb_eq in E; congruence|]. auto 8.
    - destruct (Nat.eq_dec d c) as [->|Hd].
      + rewrite Ha in Hc. injection Hc as <-. destruct Hk as [Hk|[Hk Hl]].
        * destruct k as [| |j g| | | | | | | | | | | |]; cbn [leaving] in Hk; try contradiction. destruct Hk as [-> Hk]. cbn [Conc.next] in Hx. destruct (nth_error (w_heap (cn_world x)) n) as [s|] eqn:Es; [|discriminate].
          destruct (Hk s (bk_tree (w_broker (cn_world x)))) as [H1 H2]. destruct (g s _) as [s' k']. injection Hx as <- <-. cbn [fst snd] in *. left. split; [|split; discriminate].
          exists n, k'. cbn [cn_tasks cn_world apply]. rewrite (aget_aput Nat.eqb Nat.eqb_eq), Nat.eqb_refl. split; [reflexivity|]. split; [exact HM|]. split; [exact Hcn|]. split; [exact Hmg|].
          unfold put_session, set_heap. cbn [w_heap]. rewrite list_set_length. split; [exact Hlen|]. right. split; [exact H2|]. intros s1. rewrite list_set_same by exact Hlen. intros E. injection E as <-. exact H1.
        * destruct k as [| |j g| | | | |o' k'| | | | | | |]; cbn [saving] in Hk; try contradiction; cbn [Conc.next] in Hx.
          -- destruct Hk as [<- Hk]. destruct (nth_error (w_heap (cn_world x)) n) as [s|] eqn:Es; [|discriminate]. destruct (Hk s (bk_tree (w_broker (cn_world x))) (Hl _ eq_refl)) as [H1 H2].
             destruct (g s _) as [s' k']. injection Hx as <- <-. cbn [fst snd] in *. left. split; [|split; discriminate].
             exists n, k'. cbn [cn_tasks cn_world apply]. rewrite (aget_aput Nat.eqb Nat.eqb_eq), Nat.eqb_refl. split; [reflexivity|]. split; [exact HM|]. split; [exact Hcn|]. split; [exact Hmg|].
             unfold put_session, set_heap. cbn [w_heap]. rewrite list_set_length. split; [exact Hlen|]. right. split; [exact H2|]. intros s1. rewrite list_set_same by exact Hlen. intros E. injection E as <-. exact H1.
          -- destruct Hk as [(z & st & -> & Hst) Hk]. injection Hx as <- <-. right. specialize (Ho z st _ eq_refl). subst z. exists (eq n). split.
             ++ split; [intros j <-; exact HM|]. cbn [apply cn_world]. split; [intros j s <- Hjs; apply Hl; exact Hjs|]. split; [intros j Hj; symmetry; apply Hcn, Hj|]. split; [intros _ j Hj; symmetry; apply Hmg, Hj|].
                intros st1. cbn. unfold mem_load_session. cbn. rewrite aget_aput by apply beqb_spec. assert (Er : bytes_eqb id id = true) by (apply beqb_spec; reflexivity). rewrite Er. intros E. injection E as <-. exact Hst.
             ++ cbn [cn_tasks]. intros k2. rewrite (aget_aput Nat.eqb Nat.eqb_eq), Nat.eqb_refl. intros E. injection E as <-. apply Hk.
      + left. split; [|split; congruence]. exists n, kc. cbn [cn_tasks cn_world]. rewrite (aget_aput Nat.eqb Nat.eqb_eq). destruct (Nat.eqb c d) eqn:E; [apply Nat.eqb_eq in E; congruence|].
        split; [exact Hc|]. split; [exact HM|]. rewrite conns_other by exact Hd. split; [exact Hcn|]. split; [apply manager_other; assumption|]. rewrite (heap_apply d o). split; [lia|]. rewrite heap_other by assumption. exact Hk.
  Qed.
  Lemma giving_runs cfg x tr y : mruns cfg x tr y -> Forall fair_item tr -> Forall own_save tr -> giving_up x ->
    In (IEnd c) tr \/ (exists o, In (IStep c (OOut o)) tr) -> silent y.
  Proof.
    induction 1 as [x|x m x1 i tr x2 Hm Hr IH]; intros Hf Hs H Hc; [destruct Hc as [[]|(o & [])]|]. inversion Hf as [|? ? Hf1 Hf2]; inversion Hs as [|? ? Hs1 Hs2]; subst.
    destruct (giving_step _ _ _ _ _ Hm Hf1 Hs1 H) as [(H1 & H2 & H3)|H1].
    - apply IH; auto. destruct Hc as [[Hc|Hc]|(o & [Hc|Hc])]; eauto; [congruence|destruct (H3 o Hc)].
    - eapply silent_runs; eauto.
  Qed.
End Filter.

(** ** The session a connection is served from is the one its identifier leads to *)
Section Led.
  Context (c : nat) (id : bytes).
  (** [d]: the connection is attached; [m]: the session that the identifier leads to *)
  Fixpoint att (d : bool) (m : option nat) (k : code) : Prop :=
    match k with
    | Finish => True
    | Emit _ k | Send _ _ k | Leave k | Acquire _ k | Conc.Release _ k | Forget _ k => att d m k
    | Sess _ g => forall s n, att d m (snd (g s n))
    | Sub _ k => forall n, att d m (k n)
    | Walk _ k => forall ps, att d m (k ps)
    | Store _ k => forall r, att d m (k r)
    | Find x k => x = id /\ forall r, (forall j, r = Some j -> m = Some j) -> att d m (k r)
    | New x _ k => d = false /\ x = id /\ forall j, att d (Some j) (k j)
    | Attach j k => m = Some j /\ att true m k
    | Detach k => att false m k
    end.
  Section Codes.
    Context (cfg : config).
    Lemma att_sends d m ps g k : att d m k -> att d m (sends ps g k).
    Proof. induction ps; simpl; auto. Qed.
    Lemma att_publish d m t g k : att d m k -> att d m (publish t g k).
    Proof.
      intros H. assert (Hr : att d m (route t g k)) by (simpl; intros ps; apply att_sends, H).
      unfold publish. destruct (mg_retain g); [destruct (mg_payload g) as [[|]|]|]; cbn [att]; auto.
    Qed.
    Lemma att_id d m i k : (forall x, att d m (k x)) -> att d m (client_id_of i k).
    Proof. intros H. unfold client_id_of. cbn [att fst snd]. auto. Qed.
    Lemma att_end d m i : att d m (end_code c i).
    Proof.
      unfold end_code. cbn [att fst snd]. intros s n. destruct (se_will s) as [x|]; [|exact I].
      apply att_publish. apply att_id. intros _. apply att_id. intros x'. cbn. auto.
    Qed.
    Lemma att_respond d m r : att d m (respond c r).
    Proof. destruct r; exact I. Qed.
    Lemma att_one d m i g k : att d m k -> att d m (subscribe_one i g k).
    Proof. intros H. unfold subscribe_one. cbn [att fst snd]. auto. Qed.
    Lemma att_sub d m i fs : forall k, (forall rs, att d m (k rs)) -> att d m (subscribe_all i fs k).
    Proof. induction fs as [|[g o] fs IH]; intros k H; cbn [subscribe_all]; [apply H|]. destruct (validate_subscribe_filter g); [auto|]. apply att_one. auto. Qed.
    Lemma att_save d m i k : att d m k -> att d m (save_subscriptions i k).
    Proof. intros H. apply att_id. intros x. cbn [att fst snd]. auto. Qed.
    Lemma att_remove d m i n k : att d m k -> att d m (remove_inflight i n k).
    Proof. intros H. apply att_id. intros x. cbn [att]. auto. Qed.
    Lemma att_simple d m i h after : (forall k, att d m k -> att d m (after k)) -> att d m (simple_code c i h after).
    Proof. intros Ha. unfold simple_code. cbn [att]. intros s n. destruct (h s) as [[r| |] s1]; cbn [snd]; [apply Ha, att_respond|apply att_end|exact I]. Qed.
    Lemma att_packet d m i k : att d m (packet_code cfg c i k).
    Proof.
      destruct k as [k|k|p|a|a|a|a|p|k|p|k| | |x|a]; cbn [packet_code]; try apply att_end; try (apply att_simple; auto using att_remove; fail).
      - unfold publish_code. destruct (validate_publish_topic _); [apply att_end|].
        destruct (pb_qos p); [|destruct (pb_packet_id p) as [n|]|destruct (pb_packet_id p) as [n|]|]; try (apply att_publish; first [apply att_respond|apply att_end]).
        intros s n'. cbn [snd]. apply att_publish, att_respond.
      - intros s n. cbn [fst snd]. apply att_sub. intros rs. match goal with |- att d m (Conc.Release _ ?z) => change (att d m z) end. apply att_save. exact I.
      - intros s n. destruct (unsubscribe_loop (us_payload p) (se_subs s)) as [rs subs]. cbn [snd]. apply att_save. exact I.
      - apply att_respond.
      - intros s n. cbn [snd]. apply att_id. intros y. cbn [att]. intros. apply att_end.
    Qed.
    Lemma att_begin d i u a r subs wl infl : att d (Some i) (begin_code c i u a r subs wl infl).
    Proof.
      unfold begin_code. cbn [att]. intros s n. destruct (begin u r s) as [ack t]. cbn [snd]. destruct a; [|exact I]. cbn [att]. apply att_id. intros x. cbn [att snd]. intros _ s1 _.
      cbv zeta. assert (Hr : att d (Some i) (restore_code c i subs wl infl)).
      { unfold restore_code. cbv zeta. set (rest := emits _ _). assert (Hr : att d (Some i) rest) by (unfold rest; clear rest; induction infl; cbn; auto).
        set (wills := match wl with Some x => _ | None => _ end). assert (Hw : att d (Some i) wills) by (unfold wills; destruct wl; [|exact Hr]; intros s' n'; exact Hr).
        destruct subs as [|g fs]; [exact Hw|]. change (att d (Some i) (restore_all i (g :: fs) (Conc.Release (LSession i) wills))).
        induction (g :: fs) as [|h l IH]; cbn [restore_all]; [exact Hw|]. apply att_one, IH. }
      destruct (se_will s1); cbn [att]; auto.
    Qed.
    Lemma att_connect m k u a : presented k = id -> att false m (connect_code cfg c k u a).
    Proof.
      intros Hp. unfold connect_code. destruct (negb _); [exact I|]. cbv zeta.
      assert (Hg : forall m r subs wl infl, att false m (enter_code k (fun i => begin_code c i u a r subs wl infl))).
      { intros m' r subs wl infl. unfold enter_code. cbv zeta. cbn [att]. split; [exact Hp|]. intros [i|] Hi.
        - intros s n. cbn [snd]. rewrite (Hi i eq_refl). apply att_begin.
        - split; [reflexivity|]. split; [exact Hp|]. intros j. apply att_begin. }
      match goal with |- att false m (Acquire _ ?z) => change (att false m z) end. destruct (cf_clean_start _); cbn [att]; [auto|]. split; [exact Hp|]. intros [i|] _; [apply Hg|]. cbn [att]. intros r.
      destruct r as [| [st|] | | | | |]; try apply Hg. cbn [att]. auto.
    Qed.
    Lemma att_out d m i g : att d m (out_code c i g).
    Proof.
      unfold out_code. cbn [att]. intros s n. destruct (process_outgoing g s _) as [[[p| |] s']|]; cbn [snd]; try exact I.
      destruct (pb_packet_id p) as [pid|]; [|exact I]. destruct (pb_qos p); try exact I; apply att_id; intros x; cbn; auto.
    Qed.
    Lemma att_handler m sv e : event_conn e = c -> (forall k u a, e = EFirst c (Some (Connect k)) u a -> presented k = id) -> att (is_some sv) m (handler cfg sv e).
    Proof.
      intros E Hp. destruct e as [d [[]|] u a|d k|d g|d|d|]; simpl in E; subst; destruct sv as [i|]; try exact I; cbn [handler is_some].
      - apply att_connect. eapply Hp. reflexivity.
      - apply att_packet.
      - apply att_out.
      - apply att_end.
    Qed.
  End Codes.
  Definition led_item (i : item) : Prop :=
    match i with
    | IStart e => forall k u a, e = EFirst c (Some (Connect k)) u a -> presented k = id
    | IStep d (ONew x _ _) => d <> c -> x <> id
    | _ => True
    end.
  Definition led (x : conf) : Prop := exists m d,
    (forall j, aget bytes_eqb id (w_manager (cn_world x)) = Some j -> m = Some j) /\ (forall j, aget Nat.eqb c (w_conns (cn_world x)) = Some j -> m = Some j)
    /\ (d = false -> aget Nat.eqb c (w_conns (cn_world x)) = None) /\ forall k, aget Nat.eqb c (cn_tasks x) = Some k -> att d m k.
  Lemma led_step cfg x m y i : mstep cfg x m = Some (y, i) -> led_item i -> led x -> led y.
  Proof.
    intros Hm Hf (n & at' & L1 & L2 & L3 & Hk). apply mstep_inv in Hm.
    destruct Hm as [(e & -> & -> & He & Ha & ->)|[(d & -> & -> & Ha & ->)|(d & k & o & k1 & -> & -> & Ha & Hx & Hy & ->)]].
    - cbn [led_item] in Hf. destruct (Nat.eqb c (event_conn e)) eqn:E.
      + exists n, (is_some (aget Nat.eqb c (w_conns (cn_world x)))). split; [exact L1|]. split; [exact L2|]. split; [cbn [cn_world]; destruct (aget Nat.eqb c (w_conns (cn_world x))); [discriminate|reflexivity]|].
        cbn [cn_tasks]. intros k. rewrite (aget_aput Nat.eqb Nat.eqb_eq), E. intros Ek. injection Ek as <-. apply Nat.eqb_eq in E. rewrite <- E. apply att_handler; [congruence|exact Hf].
      + exists n, at'. split; [exact L1|]. split; [exact L2|]. split; [exact L3|]. cbn [cn_tasks]. intros k. rewrite (aget_aput Nat.eqb Nat.eqb_eq), E. apply Hk.
    - exists n, at'. split; [exact L1|]. split; [exact L2|]. split; [exact L3|]. cbn [cn_tasks]. intros k. rewrite (aget_adel Nat.eqb Nat.eqb_eq). destruct (Nat.eqb c d); [discriminate|apply Hk].
    - destruct (Nat.eq_dec d c) as [->|Hd].
      + specialize (Hk _ Ha).
        assert (Hput : forall d m, att d m k1 -> forall k, aget Nat.eqb c (aput Nat.eqb c k1 (cn_tasks x)) = Some k -> att d m k) by (intros d m H k2; rewrite (aget_aput Nat.eqb Nat.eqb_eq), Nat.eqb_refl; intros Ek; injection Ek as <-; exact H).
        destruct k; cbn [Conc.next att] in *; try discriminate;
          try (injection Hx as <- <-; exists n, at'; (split; [exact L1|]); (split; [exact L2|]); (split; [exact L3|]); cbn [cn_tasks]; apply Hput; apply Hk; fail).
        * destruct (nth_error (w_heap (cn_world x)) i) as [s|]; [|discriminate]. specialize (Hk s (bk_tree (w_broker (cn_world x)))). destruct (f s _) as [s' k']. injection Hx as <- <-.
          exists n, at'. split; [exact L1|]. split; [exact L2|]. split; [exact L3|]. cbn [cn_tasks]. apply Hput, Hk.
        * injection Hx as <- <-. destruct Hk as [-> Hk]. exists n, at'. split; [exact L1|]. split; [exact L2|]. split; [exact L3|]. cbn [cn_tasks]. apply Hput, Hk, L1.
        * injection Hx as <- <-. exists n, at'. split; [|split; [exact L2|]; split; [exact L3|]; cbn [cn_tasks]; apply Hput, Hk]. intros j. cbn. rewrite aget_adel by apply beqb_spec. destruct (bytes_eqb id _); [discriminate|apply L1].
        * injection Hx as <- <-. destruct Hk as (-> & -> & Hk). exists (Some (length (w_heap (cn_world x)))), false. split; [|split; [|split; [exact L3|]; cbn [cn_tasks]; apply Hput, Hk]].
          -- intros j. cbn. rewrite aget_aput by apply beqb_spec. assert (Er : bytes_eqb id id = true) by (apply beqb_spec; reflexivity). rewrite Er. auto.
          -- intros j. cbn. specialize (L3 eq_refl). cbn in L3. rewrite L3. discriminate.
        * injection Hx as <- <-. destruct Hk as [-> Hk]. exists (Some i), true. split; [exact L1|]. split; [|split; [discriminate|]; cbn [cn_tasks]; apply Hput, Hk].
          intros j. cbn. rewrite (aget_aput Nat.eqb Nat.eqb_eq), Nat.eqb_refl. auto.
        * injection Hx as <- <-. exists n, false. split; [exact L1|]. assert (Hn : aget Nat.eqb c (adel Nat.eqb c (w_conns (cn_world x))) = None) by (rewrite (aget_adel Nat.eqb Nat.eqb_eq), Nat.eqb_refl; reflexivity).
          split; [cbn; rewrite Hn; discriminate|]. split; [intros _; exact Hn|]. cbn [cn_tasks]. apply Hput, Hk.
      + exists n, at'. cbn [cn_world cn_tasks]. rewrite conns_other by exact Hd. split; [|split; [exact L2|]; split; [exact L3|]].
        * intros j. destruct o as [o|j' s s'|g q|t ps|p q| |o r|z r|z|z j' s|j'| |l|l]; try apply L1; cbn; cbn [led_item] in Hf.
          -- rewrite aget_adel by apply beqb_spec. destruct (bytes_eqb id z); [discriminate|apply L1].
          -- rewrite aget_aput by apply beqb_spec. destruct (bytes_eqb id z) eqn:E; [apply beqb_spec in E; destruct (Hf Hd); congruence|apply L1].
        * intros k2. rewrite (aget_aput Nat.eqb Nat.eqb_eq). destruct (Nat.eqb c d) eqn:E; [apply Nat.eqb_eq in E; congruence|apply Hk].
  Qed.
  Lemma led_runs cfg x tr y : mruns cfg x tr y -> Forall led_item tr -> led x -> led y.
  Proof. induction 1; intros Hf Hl; [exact Hl|]. inversion Hf; subst. eauto using led_step. Qed.
  Lemma led_on st : led (conf_on st).
  Proof. exists None, false. repeat split; discriminate. Qed.
End Led.

(** ** What holds of a client with an identifier of its own *)
Lemma owned_fair {st0} cfg TR x c id f b {Hsane : Sane cfg st0} : mruns cfg (conf_on st0) TR x -> (forall c, Forall texts (events_of c TR)) -> owns c id TR ->
  forall tr, (forall i, In i tr -> In i TR) -> unasked c f tr -> (b = false -> goes_on_only c tr) -> Forall (fair_item c id f b (mine c TR)) tr.
Proof.
  intros Hr Ht Ho tr Hin Hu Hb. apply Forall_forall. intros i Hi. pose proof (own_runs _ _ _ _ Hr [] own_new) as Hown. destruct i as [e|d o|d]; cbn [fair_item]; [| |exact I].
  - split; [intros p ->; apply Hu, Hi|]. split; [intros k u a ->; destruct b; [reflexivity|destruct (Hb eq_refl _ _ _ Hi)]|].
    intros k u a ->. apply (proj1 Ho). apply Hin in Hi. exists k, u, a. auto.
  - pose proof (nobody_else cfg TR x c id Hr Ht Ho d o (Hin _ Hi)) as Hn. destruct o as [o|j s s'|g n|t ps|p m| |o r|y r|y|y j s|j| |l|l]; try exact I.
    + intros Hd Hm. exact (proj1 (Hn Hd) _ _ _ Hm eq_refl).
    + intros Hd. exact (proj2 (Hn Hd) _ _ eq_refl).
    + destruct (new_came cfg TR x d y j s Hr (Hin _ Hi)) as [N1 N2]. split.
      * intros Hd. assert (Hy : y <> id) by (intros ->; apply Hd, (proj2 Ho), came_named, N1). split; [exact Hy|]. intros (id' & M1 & M2). apply Hy. rewrite (oi_once _ _ Hown _ _ _ N2 M1). apply (proj1 Ho), came_named, M2.
      * intros ->. exists y. auto.
Qed.
Lemma owned_save {st0} cfg TR x c id {Hsane : Sane cfg st0} : mruns cfg (conf_on st0) TR x -> (forall c, Forall texts (events_of c TR)) -> owns c id TR ->
  forall tr, (forall i, In i tr -> In i TR) -> Forall (own_save c id) tr.
Proof.
  intros Hr Ht Ho tr Hin. apply Forall_forall. intros i Hi y st r ->. destruct (keyed_runs cfg TR Ht (conf_on st0) TR x Hr [] []) as [_ H]; [rewrite app_nil_r; reflexivity|constructor|discriminate|].
  destruct (H _ _ _ (Hin _ Hi)) as [_ Hk]. destruct (Hk y eq_refl) as (e & He1 & He2). rewrite (owns_linked _ _ _ _ Ho He1) in He2. apply (proj1 Ho), He2.
Qed.
Lemma owned_led {st0} cfg TR x c id {Hsane : Sane cfg st0} : mruns cfg (conf_on st0) TR x -> owns c id TR -> forall tr, (forall i, In i tr -> In i TR) -> Forall (led_item c id) tr.
Proof.
  intros Hr Ho tr Hin. apply Forall_forall. intros i Hi. destruct i as [e|d o|d]; cbn [led_item]; [|destruct o; try exact I|exact I].
  - intros k u a ->. apply (proj1 Ho). apply Hin in Hi. exists k, u, a. auto.
  - destruct (new_came cfg TR x d _ _ _ Hr (Hin _ Hi)) as [N1 _]. intros Hd ->. apply Hd, (proj2 Ho), came_named, N1.
Qed.

Lemma idle_runs cfg c x tr y : mruns cfg x tr y -> (forall e, In (IStart e) tr -> event_conn e <> c) -> (forall k, aget Nat.eqb c (cn_tasks x) = Some k -> k = Finish) -> forall o, ~ In (IStep c o) tr.
Proof.
  induction 1 as [x|x m x1 i tr x2 Hm Hr IH]; intros Hs H o Hi; [exact Hi|]. apply mstep_inv in Hm.
  assert (Hs1 : forall e, In (IStart e) tr -> event_conn e <> c) by (intros e He; apply Hs; right; exact He).
  destruct Hm as [(e & -> & -> & He & Ha & ->)|[(d & -> & -> & Ha & ->)|(d & k & o' & k1 & -> & -> & Ha & Hx & Hy & ->)]]; destruct Hi as [Hi|Hi]; try discriminate.
  - revert Hi. apply IH; [exact Hs1|]. cbn [cn_tasks]. intros k. rewrite (aget_aput Nat.eqb Nat.eqb_eq). destruct (Nat.eqb c (event_conn e)) eqn:E; [|apply H].
    apply Nat.eqb_eq in E. destruct (Hs e); [left; reflexivity|congruence].
  - revert Hi. apply IH; [exact Hs1|]. cbn [cn_tasks]. intros k. rewrite (aget_adel Nat.eqb Nat.eqb_eq). destruct (Nat.eqb c d); [discriminate|apply H].
  - injection Hi as -> ->. rewrite (H _ Ha) in Hx. discriminate.
  - assert (Hd : d <> c) by (intros ->; rewrite (H _ Ha) in Hx; discriminate). revert Hi. apply IH; [exact Hs1|]. cbn [cn_tasks]. intros k2. rewrite (aget_aput Nat.eqb Nat.eqb_eq).
    destruct (Nat.eqb c d) eqn:E; [apply Nat.eqb_eq in E; congruence|apply H].
Qed.

(** The point from which the filter is given up: the client has been told, or its connection's handler is done. *)
Lemma given_up {st0} cfg c id f p pre mid rest x b {Hsane : Sane cfg st0} :
  let TR := pre ++ IStart (EPacket c (Unsubscribe p)) :: mid ++ rest in
  mruns cfg (conf_on st0) TR x -> (forall c, Forall texts (events_of c TR)) -> owns c id TR -> In f (us_payload p) -> (exists a, In (IStep c (OOut (Sent c (UnsubAck a)))) mid) ->
  (forall e, In (IStart e) mid -> event_conn e <> c) -> unasked c f rest -> (b = false -> goes_on_only c rest) ->
  exists y, mruns cfg y rest x /\ silent c id f b (mine c TR) y /\ silent c id f b (mine c TR) x.
Proof.
  intros TR Hr Ht Ho Hf (a & Ha) Hmid Hu0 Hb0.
  assert (Hu : unasked c f (mid ++ rest)) by (intros q Hq; apply in_app_or in Hq; destruct Hq as [Hq|Hq]; [destruct (Hmid _ Hq eq_refl)|apply (Hu0 _ Hq)]).
  assert (Hb : b = false -> goes_on_only c (mid ++ rest)) by (intros Eb k u w Hq; apply in_app_or in Hq; destruct Hq as [Hq|Hq]; [destruct (Hmid _ Hq eq_refl)|apply (Hb0 Eb _ _ _ Hq)]).
  assert (Hin : forall i, In i (mid ++ rest) -> In i TR) by (intros i Hi; unfold TR; apply in_or_app; right; right; exact Hi).
  pose proof (owned_fair cfg TR x c id f b Hr Ht Ho (mid ++ rest) Hin Hu Hb) as Hfair. pose proof (owned_save cfg TR x c id Hr Ht Ho (mid ++ rest) Hin) as Hsave.
  apply Forall_app in Hfair. destruct Hfair as [Hfm Hfr]. apply Forall_app in Hsave. destruct Hsave as [Hsm _].
  pose proof (owned_led cfg TR x c id Hr Ho pre) as Hled.
  pose proof Hr as Hr'. unfold TR in Hr'. apply mruns_app in Hr'. destruct Hr' as (y0 & Hy0 & Hyx). inversion Hyx as [|? m y1 ? ? ? Hm Hr1]; subst. apply mruns_app in Hr1. destruct Hr1 as (y2 & Hy2 & Hr2).
  assert (Hl : led c id y0).
  { eapply led_runs; [exact Hy0| |apply led_on]. apply Hled. intros i Hi. unfold TR. apply in_or_app. left. exact Hi. }
  assert (Hown : own_inv pre y0) by exact (own_runs _ _ _ _ Hy0 [] own_new).
  exists y2. split; [exact Hr2|]. assert (Hs : silent c id f b (mine c TR) y2).
  { apply mstep_inv in Hm. destruct Hm as [(e & -> & E & He & Hn & ->)|[(d & -> & E & _)|(d & k & o & k1 & -> & E & _)]]; try discriminate. injection E as <-. cbn [event_conn] in *.
    cbn [handler] in Hy2. destruct (aget Nat.eqb c (w_conns (cn_world y0))) as [i|] eqn:Ei.
    - eapply giving_runs; [exact Hy2|exact Hfm|exact Hsm| |right; exists (Sent c (UnsubAck a)); exact Ha].
      exists i, (unsubscribe_code c i p). cbn [cn_tasks cn_world]. rewrite (aget_aput Nat.eqb Nat.eqb_eq), Nat.eqb_refl. split; [reflexivity|].
      destruct Hl as (m & d & L1 & L2 & L3 & L4). pose proof (L2 i Ei) as ->. pose proof (oi_conns _ _ Hown _ _ Ei) as Hmi.
      split; [unfold TR; apply mine_app; exact Hmi|]. split; [intros j Hj; congruence|]. split; [intros j Hj; apply L1 in Hj; congruence|].
      split; [destruct Hmi as (z & Hz & _); eapply oi_heap; eauto|]. left. apply leaving_unsubscribe, Hf.
    - exfalso. eapply idle_runs; [exact Hy2|exact Hmid| |exact Ha]. cbn [cn_tasks]. intros k. rewrite (aget_aput Nat.eqb Nat.eqb_eq), Nat.eqb_refl. congruence. }
  split; [exact Hs|]. eapply silent_runs; eauto.
Qed.
