(** A client whose identifier nobody else uses finds no will in the store, unless an earlier life of the broker has left one there. *)
From Verif Require Import Base Utf8 Codec SpecCodec Tac Maps CodecFacts Topic SpecTopic TopicFacts Property PacketProps Packets
  TopicTree TreeFacts Storage SpecStorage StorageFacts Broker SpecBroker BrokerFacts Auth Session Server SpecServer SessionFacts ServerFacts HandlerFacts
  Conc SpecConc ConcFacts ConcLocks ConcRoute ConcOwn ConcDeliver ConcProv ConcWill WillFacts SpecDurable ConcStore ConcTestament.

Section Renew.
  Context (id : bytes).
  (** The stored will is about to be deleted. *)
  Definition clears_will (k : code) : Prop := match k with Store (DeleteWill id') _ => id' = id | _ => False end.
  Definition clears_all (k : code) : Prop := match k with Store (DeleteSession _) k => forall r, clears_will (k r) | _ => False end.
  (** [b]: what is known of the session of [id] in the table, if anything. A will is stored only if it is there, and asked for only if it is not. *)
  Fixpoint wise (b : option bool) (k : code) : Prop :=
    match k with
    | Finish => True
    | Emit _ k | Send _ _ k | Leave k | Attach _ k | Detach k | Acquire _ k | Conc.Release _ k => wise b k
    | Sess _ f => forall s n, wise b (snd (f s n))
    | Sub _ k => forall n, wise b (k n)
    | Walk _ k => forall ps, wise b (k ps)
    | Store o k => match o with StoreWill _ _ => b = Some true | GetWill id' => id' = id /\ b = Some false | _ => True end /\ forall r, wise b (k r)
    | Find id' k => forall r, wise (if bytes_eqb id' id then Some (is_some r) else b) (k r)
    | New id' _ k => forall i, wise (if bytes_eqb id' id then Some true else b) (k i)
    | Forget id' k => clears_all k /\ wise (if bytes_eqb id' id then Some false else b) k
    end.
  Section Codes.
    Context (cfg : config) (c : nat) (b : option bool).
    Lemma ws_publish t m k : wise b k -> wise b (publish t m k).
    Proof.
      intros H. assert (Hr : wise b (route t m k)) by (simpl; intros ps; induction ps; simpl; auto).
      unfold publish. destruct (mg_retain m); [destruct (mg_payload m) as [[|]|]|]; cbn [wise]; auto.
    Qed.
    Lemma ws_end i : wise b (end_code c i).
    Proof.
      unfold end_code. cbn [wise fst snd]. intros s n. destruct (se_will s) as [x|]; [|exact I].
      apply ws_publish. unfold client_id_of. cbn [wise fst snd]. auto.
    Qed.
    Lemma ws_respond r : wise b (respond c r).
    Proof. destruct r; exact I. Qed.
    Lemma ws_one i f k : wise b k -> wise b (subscribe_one i f k).
    Proof. intros H. unfold subscribe_one. cbn [wise fst snd]. auto. Qed.
    Lemma ws_sub i fs : forall k, (forall rs, wise b (k rs)) -> wise b (subscribe_all i fs k).
    Proof.
      induction fs as [|[f o] fs IH]; intros k H; cbn [subscribe_all]; [apply H|].
      destruct (validate_subscribe_filter f); [auto|]. apply ws_one. auto.
    Qed.
    Lemma ws_id i k : (forall id, wise b (k id)) -> wise b (client_id_of i k).
    Proof. intros H. unfold client_id_of. cbn [wise fst snd]. auto. Qed.
    Lemma ws_save i k : wise b k -> wise b (save_subscriptions i k).
    Proof. intros H. apply ws_id. intros j. cbn [wise fst snd]. auto. Qed.
    Lemma ws_remove i n k : wise b k -> wise b (remove_inflight i n k).
    Proof. intros H. apply ws_id. intros j. cbn [wise]. auto. Qed.
    Lemma ws_simple i h after : (forall k, wise b k -> wise b (after k)) -> wise b (simple_code c i h after).
    Proof.
      intros Ha. unfold simple_code. cbn [wise]. intros s n. destruct (h s) as [[r| |] t]; cbn [fst snd] in *; [apply Ha, ws_respond|apply ws_end|exact I].
    Qed.
    Lemma ws_packet i k : wise b (packet_code cfg c i k).
    Proof.
      destruct k as [k|k|p|a|a|a|a|p|k|p|k| | |d|a]; cbn [packet_code]; try apply ws_end; try (apply ws_simple; auto using ws_remove).
      - unfold publish_code. destruct (validate_publish_topic _); [apply ws_end|].
        assert (Hgo : forall r, wise b (publish (pb_topic p) (message_of p) (match r with Some x => respond c x | None => end_code c i end))).
        { intros [x|]; apply ws_publish; auto using ws_respond, ws_end. }
        destruct (pb_qos p); [|destruct (pb_packet_id p) as [n|] eqn:E|destruct (pb_packet_id p) as [n|] eqn:E|]; try first [exact (Hgo None)|exact (Hgo (Some None))|exact (Hgo (Some (Some _)))].
        intros s t. cbn [fst snd]. exact (Hgo (Some (Some _))).
      - intros s n. cbn [fst snd]. apply ws_sub.
        intros rs. change (wise b (save_subscriptions i (Emit (Sent c (SubAck (Mk_suback_packet (c_protocol_version (se_connect s)) (sb_packet_id p) None rs))) Finish))).
        apply ws_save. exact I.
      - intros s n. destruct (unsubscribe_loop (us_payload p) (se_subs s)) as [rs subs]. cbn [fst snd] in *. apply ws_save. exact I.
      - apply ws_respond.
      - intros s n. cbn [fst snd]. apply ws_id. intros j. cbn [wise]. split; [exact I|]. intros. apply ws_end.
    Qed.
    Lemma ws_out i f : wise b (out_code c i f).
    Proof.
      unfold out_code. cbn [wise]. intros s n. destruct (process_outgoing f s _) as [[[p|e|] s']|]; cbn [fst snd]; try exact I; try apply ws_end.
      destruct (pb_packet_id p); [destruct (pb_qos p)|]; try exact I; apply ws_id; intros j; cbn [wise]; auto.
    Qed.
    Lemma ws_emits os k : wise b k -> wise b (emits os k).
    Proof. intros H. induction os; cbn; auto. Qed.
    Lemma ws_restore i subs wl infl : wise b (restore_code c i subs wl infl).
    Proof.
      unfold restore_code. cbv zeta. set (rest := emits _ _). assert (Hr : wise b rest) by (apply ws_emits; exact I).
      set (wills := match wl with Some x => _ | None => _ end).
      assert (Hw : wise b wills) by (unfold wills; destruct wl; [|exact Hr]; intros s n; exact Hr).
      destruct subs as [|f fs]; [exact Hw|]. change (wise b (restore_all i (f :: fs) (Conc.Release (LSession i) wills))).
      generalize (f :: fs). intros l. induction l; cbn [restore_all]; [exact Hw|]. apply ws_one; assumption.
    Qed.
  End Codes.
  Lemma ws_begin c i u a r subs wl infl : wise (Some true) (begin_code c i u a r subs wl infl).
  Proof.
    unfold begin_code. cbn [wise]. intros s n. destruct (begin u r s) as [ack t]. cbn [fst snd] in *. destruct a; [|exact I]. cbn [wise].
    apply ws_id. intros j. cbn [wise fst snd]. split; [exact I|]. intros _ s1 _. cbv zeta.
    destruct (se_will s1); cbn [wise]; [split; [reflexivity|intros _]|]; apply ws_restore.
  Qed.
  Lemma ws_connect cfg c k u a : presented k = id -> wise None (connect_code cfg c k u a).
  Proof.
    intros Hid. unfold connect_code. destruct (negb _); [exact I|]. cbv zeta. change (cl_client_id (c_payload k)) with (presented k). rewrite Hid.
    assert (Hg : forall b r subs wl infl, wise b (enter_code k (fun i => begin_code c i u a r subs wl infl))).
    { intros b r subs wl infl. unfold enter_code. cbv zeta. change (cl_client_id (c_payload k)) with (presented k). rewrite Hid. cbn [wise]. rewrite bytes_eqb_refl.
      intros [i|]; cbn [is_some wise snd]; intros; rewrite ?bytes_eqb_refl; apply ws_begin. }
    match goal with |- wise _ (Acquire _ ?z) => change (wise None z) end.
    destruct (cf_clean_start _).
    - cbn [wise clears_all clears_will]. rewrite bytes_eqb_refl. auto 10.
    - cbn [wise]. rewrite bytes_eqb_refl. intros [i|]; cbn [is_some]; [apply Hg|]. cbn [wise]. split; [exact I|]. intros r. destruct r; try apply Hg.
      destruct s as [st|]; [|apply Hg]. cbn [wise]. auto 10.
  Qed.
  Lemma ws_handler cfg sv e : (forall c k u a, e = EFirst c (Some (Connect k)) u a -> presented k = id) -> wise None (handler cfg sv e).
  Proof.
    intros H. destruct e as [d fi u a|d k|d f|d|d|], sv as [i|]; cbn [handler]; try exact I.
    - destruct fi as [[]|]; try exact I. apply ws_connect. eapply H. reflexivity.
    - apply ws_packet.
    - apply ws_out.
    - apply ws_end.
  Qed.
  Lemma manager_apply d o w : aget bytes_eqb id (w_manager (apply d o w)) =
    match o with
    | OForget id' => if bytes_eqb id' id then None else aget bytes_eqb id (w_manager w)
    | ONew id' i _ => if bytes_eqb id' id then Some i else aget bytes_eqb id (w_manager w)
    | _ => aget bytes_eqb id (w_manager w)
    end.
  Proof.
    destruct o; try reflexivity; cbn [apply set_manager set_heap w_manager].
    - rewrite aget_adel by apply beqb_spec. destruct (bytes_eqb id0 id) eqn:E.
      + apply beqb_spec in E. subst. rewrite bytes_eqb_refl. reflexivity.
      + destruct (bytes_eqb id id0) eqn:F; [|reflexivity]. apply beqb_spec in F. subst. rewrite bytes_eqb_refl in E. discriminate.
    - rewrite aget_aput by apply beqb_spec. destruct (bytes_eqb id0 id) eqn:E.
      + apply beqb_spec in E. subst. rewrite bytes_eqb_refl. reflexivity.
      + destruct (bytes_eqb id id0) eqn:F; [|reflexivity]. apply beqb_spec in F. subst. rewrite bytes_eqb_refl in E. discriminate.
  Qed.

  Definition there (x : conf) : option nat := aget bytes_eqb id (w_manager (cn_world x)).
  Definition agrees (b : option bool) (x : conf) : Prop := match b with Some v => is_some (there x) = v | None => True end.
  Record new_inv (c : nat) (x : conf) : Prop := {
    ni_task : forall k, aget Nat.eqb c (cn_tasks x) = Some k -> exists b, wise b k /\ agrees b x;
    ni_will : mem_get_will id (w_store (cn_world x)) = None \/ there x <> None
      \/ exists k, aget Nat.eqb c (cn_tasks x) = Some k /\ (clears_will k \/ clears_all k)
  }.
  Context {st0 : mem_store} (cfg : config) (TR : list item) (xf : conf) (c : nat) {Hsane : Sane cfg st0}.
  Context (HTR : mruns cfg (conf_on st0) TR xf) (Htx : forall c, Forall texts (events_of c TR)) (Hown : owns c id TR).
  Lemma own_came d : came d id TR -> d = c.
  Proof. intros H. apply Hown, came_named, H. Qed.
  Lemma new_step pre x m x1 j rest : TR = pre ++ j :: rest -> mruns cfg (conf_on st0) pre x -> mstep cfg x m = Some (x1, j) -> new_inv c x ->
    new_inv c x1 /\ forall id' y, j <> IStep c (OStore (GetWill id') (RWill (Some y))).
  Proof.
    intros E Hp Hs Hi. assert (Hin : In j TR) by (rewrite E; apply in_or_app; right; left; reflexivity).
    pose proof (own_runs _ _ _ _ Hp [] own_new) as Ho. cbn [app] in Ho. destruct Hi as [Hk Hw]. apply mstep_inv in Hs.
    destruct Hs as [(e & -> & -> & He & Hni & ->)|[(d & -> & -> & Hd & ->)|(d & k0 & o & k1 & -> & -> & Hd & Hn & Hm & ->)]].
    - split; [|discriminate]. unfold agrees, there in *. constructor; unfold agrees, there; cbn [cn_tasks cn_world].
      + intros k Hkk. destruct (Nat.eq_dec (event_conn e) c) as [Ec|Ec].
        * rewrite Ec, (aget_put_same _ nateqb_spec) in Hkk. injection Hkk as <-. exists None. split; [|exact I]. apply ws_handler.
          intros d k u a ->. cbn [event_conn] in Ec. subst d. apply Hown. exists k, u, a. auto.
        * rewrite tasks_other in Hkk by exact Ec. apply Hk, Hkk.
      + destruct Hw as [Hw|[Hw|(k & H1 & H2)]]; auto. right. right. exists k. split; [|exact H2]. rewrite tasks_other; [exact H1|].
        intros Ec. rewrite Ec in Hni. congruence.
    - split; [|discriminate]. unfold agrees, there in *. constructor; unfold agrees, there; cbn [cn_tasks cn_world].
      + intros k Hkk. destruct (Nat.eq_dec d c) as [Ec|Ec]; [rewrite Ec, (aget_del_same _ nateqb_spec) in Hkk; discriminate|].
        rewrite tasks_del in Hkk by exact Ec. apply Hk, Hkk.
      + destruct Hw as [Hw|[Hw|(k & H1 & H2)]]; auto. right. right. exists k. split; [|exact H2]. rewrite tasks_del; [exact H1|].
        intros ->. rewrite Hd in H1. injection H1 as <-. destruct H2 as [[]|[]].
    - destruct (Nat.eq_dec d c) as [->|Ec].
      + destruct (Hk _ Hd) as (b & Hb & Ha).
        (* steps that leave table and store alone *)
        assert (Hplain : forall k, k1 = k -> wise b k -> w_manager (apply c o (cn_world x)) = w_manager (cn_world x) -> w_store (apply c o (cn_world x)) = w_store (cn_world x) ->
            ~ (clears_will k0 \/ clears_all k0) -> new_inv c (Mk_conf (apply c o (cn_world x)) (aput Nat.eqb c k1 (cn_tasks x)) (relock c o (cn_locks x)) (reread c o (cn_readers x)))).
        { intros k -> Hwk E1 E2 Hcl. unfold agrees, there in *. constructor; unfold agrees, there; cbn [cn_tasks cn_world]; rewrite E1.
          - intros k2 H2. rewrite (aget_put_same _ nateqb_spec) in H2. injection H2 as <-. exists b. auto.
          - rewrite E2. destruct Hw as [Hw|[Hw|(k2 & H1 & H2)]]; auto. rewrite Hd in H1. injection H1 as <-. contradiction. }
        destruct k0 as [|u k|i f|f k|t k|p0 m0 k|k|q k|id' k|id' k|id' s k|i k|k|l k|l k]; cbn [Conc.next] in Hn; try discriminate;
          try (injection Hn as <- <-; split; [|discriminate]; eapply Hplain; [reflexivity|apply Hb|reflexivity|reflexivity|intros [[]|[]]]; fail).
        * destruct (nth_error _ i) as [s|] eqn:Es; [|discriminate]. cbn [wise] in Hb. specialize (Hb s (bk_tree (w_broker (cn_world x)))). destruct (f s _) as [s' k']. injection Hn as <- <-.
          split; [|discriminate]. eapply Hplain; [reflexivity|exact Hb|reflexivity|reflexivity|intros [[]|[]]].
        * injection Hn as <- <-. cbn [wise] in Hb. destruct Hb as [Hq Hb]. split.
          -- unfold agrees, there in *. constructor; unfold agrees, there; cbn [cn_tasks cn_world]; rewrite manager_apply.
             ++ intros k2 H2. rewrite (aget_put_same _ nateqb_spec) in H2. injection H2 as <-. exists b. auto.
             ++ rewrite (aget_put_same _ nateqb_spec).
                change (w_store (apply c (OStore q (fst (mem_step (w_store (cn_world x)) q))) (cn_world x))) with (snd (mem_step (w_store (cn_world x)) q)).
                assert (Hst : b = Some true -> aget bytes_eqb id (w_manager (cn_world x)) <> None) by (intros -> Hx; rewrite Hx in Ha; discriminate Ha).
                assert (Hcase : (exists i' w', q = StoreWill i' w') \/ q = DeleteWill id \/ spares_will id q).
                { destruct q; cbn [spares_will]; auto; [left; eauto|]. destruct (bytes_eqb client id) eqn:Eb; [apply beqb_spec in Eb; subst; auto|].
                  right. right. intros ->. rewrite bytes_eqb_refl in Eb. discriminate. }
                destruct Hcase as [(i' & w' & ->)|[->|Hsp]]; [right; left; apply Hst, Hq| |].
                ** left. cbn [mem_step snd]. unfold mem_get_will. cbn [mem_delete_will ms_wills]. apply (aget_del_same _ beqb_spec).
                ** rewrite (will_stays id q _ Hsp). destruct Hw as [Hw|[Hw|(k2 & H1 & H2)]]; auto. rewrite Hd in H1. injection H1 as <-.
                   right. right. eexists. split; [reflexivity|]. left. destruct H2 as [H2|H2]; destruct q; cbn [clears_will clears_all] in H2; try contradiction; apply H2.
          -- intros id' y Ey. injection Ey as -> Ey. destruct Hq as [-> ->]. cbn [mem_step fst] in Ey. injection Ey as Ey. unfold agrees in Ha.
             destruct Hw as [Hw|[Hw|(k2 & H1 & H2)]]; [congruence|destruct (there x); [discriminate|congruence]|].
             rewrite Hd in H1. injection H1 as <-. destruct H2 as [[]|[]].
        * injection Hn as <- <-. split; [|discriminate]. unfold agrees, there in *. constructor; unfold agrees, there; cbn [cn_tasks cn_world]; rewrite manager_apply.
          -- intros k2 H2. rewrite (aget_put_same _ nateqb_spec) in H2. injection H2 as <-. cbn [wise] in Hb. specialize (Hb (aget bytes_eqb id' (w_manager (cn_world x)))).
             destruct (bytes_eqb id' id) eqn:Eb; [|eauto]. apply beqb_spec in Eb. subst id'. eexists. split; [exact Hb|reflexivity].
          -- destruct Hw as [Hw|[Hw|(k2 & H1 & H2)]]; auto. rewrite Hd in H1. injection H1 as <-. destruct H2 as [[]|[]].
        * injection Hn as <- <-. split; [|discriminate]. cbn [wise] in Hb. destruct Hb as [Hca Hb]. constructor; unfold agrees, there; cbn [cn_tasks cn_world]; rewrite manager_apply.
          -- intros k2 H2. rewrite (aget_put_same _ nateqb_spec) in H2. injection H2 as <-. destruct (bytes_eqb id' id); [exists (Some false)|exists b]; auto.
          -- right. right. rewrite (aget_put_same _ nateqb_spec). eauto.
        * injection Hn as <- <-. split; [|discriminate]. cbn [wise] in Hb. unfold agrees, there in *. constructor; unfold agrees, there; cbn [cn_tasks cn_world]; rewrite manager_apply.
          -- intros k2 H2. rewrite (aget_put_same _ nateqb_spec) in H2. injection H2 as <-. specialize (Hb (length (w_heap (cn_world x)))). destruct (bytes_eqb id' id); [exists (Some true)|exists b]; auto.
          -- destruct (bytes_eqb id' id); [right; left; discriminate|].
             destruct Hw as [Hw|[Hw|(k2 & H1 & H2)]]; auto. rewrite Hd in H1. injection H1 as <-. destruct H2 as [[]|[]].
      + split; [|intros; congruence]. assert (Hm1 : aget bytes_eqb id (w_manager (apply d o (cn_world x))) = aget bytes_eqb id (w_manager (cn_world x))).
        { destruct (within_next _ _ _ _ _ _ (oi_tasks _ _ Ho _ _ Hd) Hn) as [_ Hc]. rewrite manager_apply. destruct o; try reflexivity;
            (destruct (bytes_eqb id0 id) eqn:Eb; [|reflexivity]; apply beqb_spec in Eb; subst id0; destruct Ec; apply own_came; rewrite E; apply came_app, Hc). }
        unfold agrees, there in *. constructor; unfold agrees, there; cbn [cn_tasks cn_world].
        * intros k Hkk. rewrite tasks_other in Hkk by exact Ec. destruct (Hk _ Hkk) as (b & H1 & H2). exists b. split; [exact H1|]. rewrite Hm1. exact H2.
        * rewrite Hm1, tasks_other by exact Ec. destruct Hw as [Hw|Hw]; [left|right; exact Hw]. rewrite <- Hw. destruct o; try reflexivity.
          change (w_store (apply d (OStore o r) (cn_world x))) with (snd (mem_step (w_store (cn_world x)) o)). apply will_stays.
          destruct (nobody_else cfg TR xf c id HTR Htx Hown d (OStore o r) Hin Ec) as [_ Hkey]. specialize (Hkey _ _ eq_refl). destruct o; cbn [spares_will key] in *; auto; congruence.
  Qed.
  Lemma new_runs : forall x tr x', mruns cfg x tr x' -> forall pre rest, TR = pre ++ tr ++ rest -> mruns cfg (conf_on st0) pre x -> new_inv c x -> new_inv c x' /\ unfound c tr.
  Proof.
    induction 1 as [x|x m x1 j tr x2 Hs Hr IH]; intros pre rest E Hp Hi; [split; [exact Hi|intros i y []]|].
    destruct (new_step pre x m x1 j (tr ++ rest) E Hp Hs Hi) as [H1 H2]. destruct (IH (pre ++ [j]) rest) as [H3 H4].
    - rewrite <- app_assoc. exact E.
    - apply mruns_app. exists x. split; [exact Hp|]. econstructor; [exact Hs|constructor].
    - exact H1.
    - split; [exact H3|]. intros i y [H|H]; [exact (H2 _ _ H)|exact (H4 _ _ H)].
  Qed.
  Lemma finds_none : mem_get_will id st0 = None -> unfound c TR.
  Proof.
    intros H. apply (new_runs _ _ _ HTR [] []); [rewrite app_nil_r; reflexivity|constructor|]. constructor; [discriminate|left; exact H].
  Qed.
End Renew.
