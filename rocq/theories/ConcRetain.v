(** Retained messages of one topic while handlers interleave. *)
From Verif Require Import Base Utf8 Codec SpecCodec Tac CodecFacts Maps Topic SpecTopic TopicFacts Property PacketProps Packets TopicTree TreeFacts Storage SpecStorage StorageFacts
  Broker Auth Session SessionFacts Server SpecServer ServerFacts HandlerFacts HistoryFacts ProvenanceFacts Conc ConcFacts ConcRoute SpecConc SpecLives SpecRetain ResumeFacts.

Lemma beqb_refl (a : bytes) : bytes_eqb a a = true.
Proof. apply beqb_spec. reflexivity. Qed.
Section Topic.
  Context (t : bytes).
  Definition cool (w : will) : Prop := wl_topic w = t -> wl_retain w = false.
  Definition rs (s : session) : Prop := forall w, se_will s = Some w -> cool w.
  Definition rstore (m : mem_store) : Prop :=
    (forall id w, aget bytes_eqb id (ms_wills m) = Some w -> cool w) /\ NoDup (akeys (ms_retained m)) /\ (forall t' g, aget bytes_eqb t' (ms_retained m) = Some g -> mg_topic g = t').
  (** [b]: nothing is done to the retained message of [t] *)
  Definition rop (b : bool) (o : sop) : Prop :=
    match o with
    | StoreRetained t' mo => (b = true -> t' <> t) /\ (forall g, mo = Some g -> mg_topic g = t')
    | ClearRetained => False
    | StoreWill _ w => cool w
    | _ => True
    end.
  Definition rres (r : sres) : Prop := match r with RWill (Some w) => cool w | _ => True end.
  Lemma rstore_ok b m o : rstore m -> rop b o -> rstore (snd (mem_step m o)) /\ rres (fst (mem_step m o)).
  Proof.
    intros (Hw & Hn & Hk) Ho.
    destruct o as [id st|id|id| |t' [x|]|f| |id x|id|id|id pid x|id pid|id pid|id]; cbn [mem_step fst snd rres]; (split; [|try exact I]); try (split; [exact Hw|split; assumption]); try contradiction.
    - destruct Ho as [_ Ho]. split; [exact Hw|]. split; [apply nodup_aput; [apply beqb_spec|exact Hn]|]. intros t1 g. cbn. rewrite aget_aput by apply beqb_spec. destruct (bytes_eqb t1 t') eqn:E; [|apply Hk].
      apply beqb_spec in E. subst t1. intros E. injection E as <-. apply Ho. reflexivity.
    - split; [exact Hw|]. split; [apply nodup_adel; [apply beqb_spec|exact Hn]|]. intros t1 g. cbn. rewrite aget_adel by apply beqb_spec. destruct (bytes_eqb t1 t'); [discriminate|apply Hk].
    - split; [|split; assumption]. intros id' w. cbn. rewrite aget_aput by apply beqb_spec. destruct (bytes_eqb id' id); [|apply Hw]. intros E. injection E as <-. exact Ho.
    - destruct (mem_get_will id m) as [w|] eqn:E; [|exact I]. eapply Hw, E.
    - split; [|split; assumption]. intros id' w. cbn. rewrite aget_adel by apply beqb_spec. destruct (bytes_eqb id' id); [discriminate|apply Hw].
    - unfold mem_remove_inflight. destruct (aget bytes_eqb id (ms_inflight m)); (split; [exact Hw|split; assumption]).
  Qed.
  Definition look (m : mem_store) : option message := aget bytes_eqb t (ms_retained m).
  Lemma rop_keeps m o : rop true o -> look (snd (mem_step m o)) = look m.
  Proof.
    unfold look. intros Ho. destruct o as [id st|id|id| |t' [x|]|f| |id x|id|id|id pid x|id pid|id pid|id]; cbn [mem_step fst snd]; try reflexivity; try contradiction.
    - cbn. rewrite aget_aput by apply beqb_spec. destruct (bytes_eqb t t') eqn:E; [|reflexivity]. apply beqb_spec in E. destruct (proj1 Ho eq_refl). auto.
    - cbn. rewrite aget_adel by apply beqb_spec. destruct (bytes_eqb t t') eqn:E; [|reflexivity]. apply beqb_spec in E. destruct (proj1 Ho eq_refl). auto.
    - unfold mem_remove_inflight. destruct (aget bytes_eqb id (ms_inflight m)); reflexivity.
  Qed.

  Fixpoint rcode (b : bool) (k : code) : Prop :=
    match k with
    | Finish => True
    | Sess _ f => forall s n, rs s -> rs (fst (f s n)) /\ rcode b (snd (f s n))
    | Sub _ k => forall p, rcode b (k p)
    | Walk _ k => forall ps, rcode b (k ps)
    | Store o k => rop b o /\ forall r, rres r -> rcode b (k r)
    | Find _ k => forall r, rcode b (k r)
    | New _ s k => rs s /\ forall i, rcode b (k i)
    | Emit _ k | Send _ _ k | Leave k | Forget _ k | Attach _ k | Detach k | Acquire _ k | Conc.Release _ k => rcode b k
    end.
  (** [k] stores [mo] for [t] before it says anything *)
  Fixpoint until (mo : option message) (k : code) : Prop :=
    match k with
    | Sess _ f => forall s n, rs s -> rs (fst (f s n)) /\ until mo (snd (f s n))
    | Store o k => o = StoreRetained t mo /\ (forall g, mo = Some g -> mg_topic g = t) /\ forall r, rcode true (k r)
    | _ => False
    end.
  Section Codes.
    Context (cfg : config) (c : nat) (b : bool).
    Lemma rc_route t' m k : rcode b k -> rcode b (route t' m k).
    Proof. intros H. simpl. intros ps. induction ps; simpl; auto. Qed.
    Lemma rc_publish m k : (b = true -> mg_topic m = t -> mg_retain m = false) -> rcode b k -> rcode b (publish (mg_topic m) m k).
    Proof.
      intros Hc H. pose proof (rc_route (mg_topic m) m k H) as Hr. unfold publish. destruct (mg_retain m); [|exact Hr].
      assert (Hn : b = true -> mg_topic m <> t) by (intros Eb Et; specialize (Hc Eb Et); discriminate).
      destruct (mg_payload m) as [[|]|]; (split; [split; [exact Hn|intros g E; try discriminate; injection E as <-; reflexivity]|intros _ _; exact Hr]).
    Qed.
    Lemma rs_same s s' : se_will s' = se_will s -> rs s -> rs s'.
    Proof. unfold rs. intros ->. auto. Qed.
    Lemma rc_end i : rcode b (end_code c i).
    Proof.
      unfold end_code. cbn [rcode fst snd]. intros s n Hs. split; [intros w; discriminate|]. destruct (se_will s) as [x|] eqn:E; [|exact I].
      apply (rc_publish (will_message x)); [intros _; exact (Hs _ E)|]. unfold client_id_of. cbn [rcode fst snd rop]. auto.
    Qed.
    Lemma rc_respond r : rcode b (respond c r).
    Proof. destruct r; exact I. Qed.
    Lemma rc_one i f k : rcode b k -> rcode b (subscribe_one i f k).
    Proof. intros H. unfold subscribe_one. cbn [rcode fst snd rop]. intros n. split; [exact I|]. intros r _ s n' Hs. split; [exact Hs|exact H]. Qed.
    Lemma rc_sub i fs : forall k, (forall rs, rcode b (k rs)) -> rcode b (subscribe_all i fs k).
    Proof. induction fs as [|[f o] fs IH]; intros k H; cbn [subscribe_all]; [apply H|]. destruct (validate_subscribe_filter f); [auto|]. apply rc_one; auto. Qed.
    Lemma rc_id i k : (forall id, rcode b (k id)) -> rcode b (client_id_of i k).
    Proof. intros H. unfold client_id_of. cbn [rcode fst snd]. auto. Qed.
    Lemma rc_save i k : rcode b k -> rcode b (save_subscriptions i k).
    Proof. intros H. apply rc_id. intros id. cbn [rcode fst snd rop]. intros s _ Hs. split; [exact Hs|]. split; [exact I|auto]. Qed.
    Lemma rc_remove i n k : rcode b k -> rcode b (remove_inflight i n k).
    Proof. intros H. apply rc_id. intros id. cbn [rcode rop]. auto. Qed.
    Lemma rc_simple i h after : (forall s, se_will (snd (h s)) = se_will s) -> (forall k, rcode b k -> rcode b (after k)) -> rcode b (simple_code c i h after).
    Proof.
      intros Hs Ha. unfold simple_code. cbn [rcode]. intros s n H. specialize (Hs s). destruct (h s) as [[r| |] s1]; cbn [fst snd] in *; (split; [eapply rs_same; eassumption|]);
        [apply Ha, rc_respond|apply rc_end|exact I].
    Qed.
    Lemma rc_packet i k : (b = true -> ~ retains t (EPacket c k)) -> rcode b (packet_code cfg c i k).
    Proof.
      intros Hc. destruct k as [k|k|p|a|a|a|a|p|k|p|k| | |d|a]; cbn [packet_code]; try apply rc_end.
      - unfold publish_code. destruct (validate_publish_topic _); [apply rc_end|].
        assert (Hgo : forall r, rcode b (publish (pb_topic p) (message_of p) (match r with Some x => respond c x | None => end_code c i end))).
        { intros r. apply (rc_publish (message_of p)); [|destruct r; auto using rc_respond, rc_end]. cbn [message_of mg_topic mg_retain]. intros Eb Et.
          destruct (pb_retain p) eqn:Er; [|reflexivity]. destruct (Hc Eb). exists c, p. auto. }
        destruct (pb_qos p); [|destruct (pb_packet_id p) as [n|] eqn:E|destruct (pb_packet_id p) as [n|] eqn:E|]; try first [exact (Hgo None)|exact (Hgo (Some None))|exact (Hgo (Some (Some _)))].
        intros s n' Hs. cbn [fst snd]. split; [exact Hs|exact (Hgo (Some (Some _)))].
      - apply rc_simple; [reflexivity|auto using rc_remove].
      - apply rc_simple; [reflexivity|auto].
      - apply rc_simple; [reflexivity|auto].
      - apply rc_simple; [reflexivity|auto using rc_remove].
      - intros s n Hs. cbn [fst snd]. split; [exact Hs|]. apply rc_sub.
        intros l. change (rcode b (save_subscriptions i (Emit (Sent c (SubAck (Mk_suback_packet (c_protocol_version (se_connect s)) (sb_packet_id p) None l))) Finish))).
        apply rc_save. exact I.
      - intros s n Hs. destruct (unsubscribe_loop (us_payload p) (se_subs s)) as [l subs]. cbn [fst snd]. split; [exact Hs|]. apply rc_save. exact I.
      - apply rc_respond.
      - intros s n Hs. cbn [fst snd]. split; [intros w; discriminate|]. apply rc_id. intros id. cbn [rcode rop]. split; [exact I|]. intros. apply rc_end.
      - apply rc_simple; [|auto]. intros s. unfold handle_auth. destruct (sv_manager cfg); [|reflexivity]. repeat case_match; reflexivity.
    Qed.
    Lemma rc_emits os k : rcode b k -> rcode b (emits os k).
    Proof. intros H. induction os; cbn; auto. Qed.
    Lemma rc_restore i subs wl infl : (forall w, wl = Some w -> cool w) -> rcode b (restore_code c i subs wl infl).
    Proof.
      intros Hc. unfold restore_code. cbv zeta. set (rest := emits _ _). assert (Hr : rcode b rest) by (apply rc_emits; exact I).
      set (wills := match wl with Some x => _ | None => _ end).
      assert (Hw : rcode b wills).
      { unfold wills. destruct wl as [w0|]; [|exact Hr]. intros s n Hs. cbn [fst snd]. split; [|exact Hr]. intros w E. cbn in E. injection E as <-. apply Hc. reflexivity. }
      destruct subs as [|f fs]; [exact Hw|]. change (rcode b (restore_all i (f :: fs) (Conc.Release (LSession i) wills))).
      induction (f :: fs); cbn [restore_all]; [exact Hw|]. apply rc_one; assumption.
    Qed.
    Lemma rc_begin i u a r subs wl infl : (forall w, wl = Some w -> cool w) -> rcode b (begin_code c i u a r subs wl infl).
    Proof.
      intros Hc. unfold begin_code. cbn [rcode]. intros s n Hs. assert (Hb : rs (snd (begin u r s))) by (unfold begin; repeat case_match; exact Hs).
      destruct (begin u r s) as [ack s']. cbn [fst snd] in *. split; [exact Hb|]. destruct a; [|exact I]. cbn [rcode].
      apply rc_id. intros id. cbn [rcode fst snd rop]. split; [exact I|]. intros _ _ s1 _ H1. split; [exact H1|]. cbv zeta.
      destruct (se_will s1) as [w|] eqn:E; cbn [rcode rop]; [split; [exact (H1 _ E)|intros _ _]|]; apply rc_restore, Hc.
    Qed.
    Lemma rc_connect k u a : (forall w, will_of_connect k = Some w -> cool w) -> rcode b (connect_code cfg c k u a).
    Proof.
      intros Hk. unfold connect_code. destruct (negb _); [exact I|]. cbv zeta.
      assert (Hg : forall r subs wl infl, (forall w, wl = Some w -> cool w) -> rcode b (enter_code k (fun i => begin_code c i u a r subs wl infl))).
      { intros r subs wl infl Hl. unfold enter_code. cbv zeta. cbn [rcode]. intros [i|]; [|split; [exact Hk|intros i; apply rc_begin, Hl]].
        intros s n Hs. cbn [fst snd]. split; [exact Hk|apply rc_begin, Hl]. }
      match goal with |- rcode b (Acquire _ ?z) => change (rcode b z) end.
      destruct (cf_clean_start _).
      - cbn [rcode rop]. split; [exact I|]. intros _ _. split; [exact I|]. intros _ _. apply Hg. discriminate.
      - cbn [rcode]. intros [i|]; [apply Hg; discriminate|]. cbn [rcode rop]. split; [exact I|]. intros r Hr. destruct r as [| [st|] | | | | |]; try (apply Hg; discriminate).
        cbn [rcode rop]. split; [exact I|]. intros rw Hw. split; [exact I|]. intros ri _. apply Hg. intros w E. destruct rw as [| | | | |o|]; try discriminate; subst; exact Hw.
    Qed.
    Lemma rs_out f s n r s' : rs s -> process_outgoing f s (Mk_broker n mem_new) = Some (r, s') -> rs s'.
    Proof.
      intros Hs H. unfold process_outgoing in H. destruct (aget bytes_eqb f (se_subs s)) as [st|]; [|discriminate].
      destruct (stream_next _ st) as [[m st']|]; [|discriminate].
      destruct (mg_packet_id m) as [i|]; [destruct (mg_qos m)|]; inversion H; subst r s'; exact Hs.
    Qed.
    Lemma rc_out i f : rcode b (out_code c i f).
    Proof.
      unfold out_code. cbn [rcode]. intros s n Hs. destruct (process_outgoing f s _) as [[r s']|] eqn:E; [|cbn [fst snd rcode]; auto].
      pose proof (rs_out _ _ _ _ _ Hs E) as H1. destruct r as [p| |]; cbn [fst snd]; (split; [exact H1|]); try exact I.
      destruct (pb_packet_id p) as [pid|]; [|exact I]. destruct (pb_qos p); try exact I; apply rc_id; intros id; cbn [rcode rop]; (split; [exact I|]); intros; exact I.
    Qed.
    Lemma rc_handler sv e : event_conn e = c -> (b = true -> ~ retains t e) ->
      (forall d k u a w, e = EFirst d (Some (Connect k)) u a -> declares k w -> cool w) -> rcode b (handler cfg sv e).
    Proof.
      intros E Ht Hc. destruct e as [d [[]|] u a|d k|d f|d|d|]; simpl in E; subst; destruct sv as [i|]; try exact I; cbn [handler].
      - apply rc_connect. intros w Hw. eapply Hc; [reflexivity|]. apply declares_iff, Hw.
      - apply rc_packet; exact Ht.
      - apply rc_out.
      - apply rc_end.
    Qed.
  End Codes.
  Definition kept_as (p : publish_packet) : option message :=
    match pb_payload p with None | Some [] => None | Some v => Some (with_retain false (message_of p)) end.
  Lemma until_publish c i p : pb_topic p = t -> pb_retain p = true -> validate_publish_topic t = None -> until (kept_as p) (publish_code c i p).
  Proof.
    intros Ht Hp Hv. unfold publish_code. rewrite Ht, Hv.
    assert (Hgo : forall r, until (kept_as p) (publish t (message_of p) (match r with Some x => respond c x | None => end_code c i end))).
    { intros r. assert (Hr : rcode true (route t (message_of p) (match r with Some x => respond c x | None => end_code c i end))) by (apply rc_route; destruct r; auto using rc_respond, rc_end).
      unfold publish, kept_as. change (mg_retain (message_of p)) with (pb_retain p). rewrite Hp. change (mg_payload (message_of p)) with (pb_payload p).
      destruct (pb_payload p) as [[|]|]; (split; [reflexivity|split; [intros g E; try discriminate; injection E as <-; exact Ht|intros _; exact Hr]]). }
    destruct (pb_qos p); [|destruct (pb_packet_id p) as [n|] eqn:E|destruct (pb_packet_id p) as [n|] eqn:E|]; try first [exact (Hgo None)|exact (Hgo (Some None))|exact (Hgo (Some (Some _)))].
    intros s n' Hs. cbn [fst snd]. split; [exact Hs|exact (Hgo (Some (Some _)))].
  Qed.

  (** ** Runs *)
  Definition rworld (w : world) : Prop := (forall i s, nth_error (w_heap w) i = Some s -> rs s) /\ rstore (w_store w).
  Lemma rcode_next b c k w o k1 : rcode b k -> rworld w -> next k w = Some (o, k1) ->
    rworld (apply c o w) /\ rcode b k1 /\ (b = true -> look (w_store (apply c o w)) = look (w_store w)).
  Proof.
    intros H [Hh Hs] E. assert (Hw : rworld w) by (split; assumption).
    destruct k; cbn [Conc.next rcode] in *; try discriminate; try (injection E as <- <-; cbn [apply]; (split; [first [exact Hw|split; assumption]|split; [first [exact H|apply H]|reflexivity]]); fail).
    - destruct (nth_error (w_heap w) i) as [s|] eqn:Ei; [|discriminate]. destruct (H s (bk_tree (w_broker w)) (Hh _ _ Ei)) as [H1 H2]. destruct (f s _) as [s' k']. injection E as <- <-.
      cbn [fst snd apply] in *. split; [|split; [exact H2|reflexivity]]. split; [|exact Hs]. intros j s1. unfold put_session, set_heap. cbn [w_heap]. intros Hj. destruct (Nat.eq_dec j i) as [->|Hd].
      + rewrite list_set_same in Hj by (apply nth_error_Some; congruence). injection Hj as <-. exact H1.
      + rewrite list_set_other in Hj by auto. eapply Hh, Hj.
    - injection E as <- <-. destruct H as [Ho Hk]. destruct (rstore_ok _ _ _ Hs Ho) as [H1 H2]. split; [split; [exact Hh|exact H1]|]. split; [apply Hk, H2|].
      intros ->. apply (rop_keeps (w_store w) _ Ho).
    - injection E as <- <-. cbn [apply]. destruct H as [Hn Hk]. split; [|split; [apply Hk|reflexivity]]. split; [|exact Hs]. intros j s1. unfold set_manager, set_heap. cbn [w_heap]. intros Hj.
      destruct (Nat.lt_ge_cases j (length (w_heap w))) as [Hl|Hl]; [rewrite nth_error_app1 in Hj by exact Hl; eapply Hh, Hj|].
      rewrite nth_error_app2 in Hj by exact Hl. destruct (j - length (w_heap w))%nat as [|q]; simpl in Hj; [injection Hj as <-; exact Hn|destruct q; discriminate].
  Qed.
  Lemma until_next mo c k w o k1 : until mo k -> rworld w -> next k w = Some (o, k1) ->
    rworld (apply c o w) /\ (forall x, o <> OOut x) /\ (forall f ms, o <> OStore (GetRetained f) (RMessages ms)) /\ (until mo k1 \/ (rcode true k1 /\ look (w_store (apply c o w)) = mo)).
  Proof.
    intros H [Hh Hs] E. destruct k; cbn [until] in H; try contradiction; cbn [Conc.next] in E.
    - destruct (nth_error (w_heap w) i) as [s|] eqn:Ei; [|discriminate]. destruct (H s (bk_tree (w_broker w)) (Hh _ _ Ei)) as [H1 H2]. destruct (f s _) as [s' k']. injection E as <- <-.
      cbn [fst snd apply] in *. split; [|split; [discriminate|split; [discriminate|left; exact H2]]]. split; [|exact Hs]. intros j s1. unfold put_session, set_heap. cbn [w_heap]. intros Hj. destruct (Nat.eq_dec j i) as [->|Hd].
      + rewrite list_set_same in Hj by (apply nth_error_Some; congruence). injection Hj as <-. exact H1.
      + rewrite list_set_other in Hj by auto. eapply Hh, Hj.
    - destruct H as (-> & Hg & Hk). injection E as <- <-. assert (Ho : rop false (StoreRetained t mo)) by (split; [discriminate|exact Hg]).
      destruct (rstore_ok _ _ _ Hs Ho) as [H1 H2]. split; [split; [exact Hh|exact H1]|]. split; [discriminate|]. split; [discriminate|]. right. split; [apply Hk|].
      cbn [apply]. unfold look. destruct mo as [g|]; cbn; [rewrite aget_aput by apply beqb_spec|rewrite aget_adel by apply beqb_spec]; rewrite beqb_refl; reflexivity.
  Qed.
  Definition quiet (d : nat) (pre : list item) : Prop := forall a e b, pre = a ++ IStart e :: b -> event_conn e = d -> retains t e -> In (IEnd d) b.
  Lemma quiet_snoc d pre i : quiet d (pre ++ [i]) -> i <> IEnd d -> quiet d pre.
  Proof.
    intros H Hi a e b -> He Hr. assert (K : In (IEnd d) (b ++ [i])) by (apply (H a e); [rewrite <- app_assoc; reflexivity|assumption|assumption]).
    apply in_app_or in K. destruct K as [K|[K|[]]]; [exact K|contradiction].
  Qed.
  Definition rinv (pre : list item) (x : conf) : Prop :=
    rworld (cn_world x) /\ forall d k, aget Nat.eqb d (cn_tasks x) = Some k -> rcode false k /\ (quiet d pre -> rcode true k).
  Definition willfree (tr : list item) : Prop := forall d k u a w, In (IStart (EFirst d (Some (Connect k)) u a)) tr -> declares k w -> cool w.
  Lemma willfree_app a b : willfree (a ++ b) -> willfree a /\ willfree b.
  Proof. intros H. split; intros d k u a' w Hin; eapply H, in_or_app; eauto. Qed.
  Lemma rinv_step cfg pre x m y i : mstep cfg x m = Some (y, i) -> willfree [i] -> rinv pre x -> rinv (pre ++ [i]) y.
  Proof.
    intros Hm Hf [Hw Hk]. apply mstep_inv in Hm.
    destruct Hm as [(e & -> & -> & He & Ha & ->)|[(c & -> & -> & Ha & ->)|(c & k & o & k1 & -> & -> & Ha & Hx & Hy & ->)]].
    - split; [exact Hw|]. cbn [cn_tasks]. intros d k. rewrite (aget_aput Nat.eqb Nat.eqb_eq). destruct (Nat.eqb d (event_conn e)) eqn:Ed.
      + apply Nat.eqb_eq in Ed. intros E. injection E as <-. assert (Hc : forall d k u a w, e = EFirst d (Some (Connect k)) u a -> declares k w -> cool w) by (intros d0 k u a w ->; apply (Hf d0 k u a); left; reflexivity).
        split; [eapply rc_handler; [reflexivity|discriminate|exact Hc]|]. intros Hq. eapply rc_handler; [reflexivity| |exact Hc]. intros _ Hr.
        destruct (Hq pre e [] eq_refl (eq_sym Ed) Hr).
      + intros E. destruct (Hk _ _ E) as [H1 H2]. split; [exact H1|]. intros Hq. apply H2. eapply quiet_snoc; [exact Hq|discriminate].
    - split; [exact Hw|]. cbn [cn_tasks]. intros d k. rewrite (aget_adel Nat.eqb Nat.eqb_eq). destruct (Nat.eqb d c) eqn:Ed; [discriminate|]. intros E. destruct (Hk _ _ E) as [H1 H2].
      split; [exact H1|]. intros Hq. apply H2. eapply quiet_snoc; [exact Hq|]. intros K. injection K as ->. rewrite Nat.eqb_refl in Ed. discriminate.
    - destruct (Hk _ _ Ha) as [H1 H2]. destruct (rcode_next false c _ _ _ _ H1 Hw Hx) as (N1 & N2 & _). split; [exact N1|]. cbn [cn_tasks]. intros d k2.
      rewrite (aget_aput Nat.eqb Nat.eqb_eq). destruct (Nat.eqb d c) eqn:Ed.
      + apply Nat.eqb_eq in Ed. subst d. intros E. injection E as <-. split; [exact N2|]. intros Hq. apply (rcode_next true c _ _ _ _ (H2 (quiet_snoc _ _ _ Hq ltac:(discriminate))) Hw Hx).
      + intros E. destruct (Hk _ _ E) as [K1 K2]. split; [exact K1|]. intros Hq. apply K2. eapply quiet_snoc; [exact Hq|discriminate].
  Qed.
  Lemma rinv_runs cfg x tr y : mruns cfg x tr y -> forall pre, willfree tr -> rinv pre x -> rinv (pre ++ tr) y.
  Proof.
    induction 1 as [x|x m x1 i tr x2 Hm Hr IH]; intros pre Hf H; [rewrite app_nil_r; exact H|]. change (i :: tr) with ([i] ++ tr) in *. apply willfree_app in Hf.
    rewrite app_assoc. apply IH; [apply Hf|]. eapply rinv_step; [exact Hm|apply Hf|exact H].
  Qed.
  Lemma rinv_on st : rstore st -> rinv [] (conf_on st).
  Proof. intros H. split; [|discriminate]. split; [intros i s E; destruct i; discriminate|exact H]. Qed.
  Lemma rstore_new : rstore mem_new.
  Proof. split; [discriminate|]. split; [constructor|discriminate]. Qed.
  Lemma lives_rstore cfg trs st : lives cfg trs st -> Forall willfree trs -> rstore st.
  Proof.
    induction 1 as [|trs st tr x Hl IH Hr Ht]; intros Hc; [exact rstore_new|]. apply Forall_app in Hc. destruct Hc as [Hc1 Hc2]. inversion Hc2; subst.
    exact (proj2 (proj1 (rinv_runs _ _ _ _ Hr [] ltac:(assumption) (rinv_on _ (IH Hc1))))).
  Qed.

  (** ** From when nobody does anything to the message on *)
  Definition calm (x : conf) : Prop := rworld (cn_world x) /\ forall d k, aget Nat.eqb d (cn_tasks x) = Some k -> rcode true k.
  Lemma rinv_calm pre x : rinv pre x -> (forall d, quiet d pre) -> calm x.
  Proof. intros [H1 H2] Hq. split; [exact H1|]. intros d k E. apply (H2 _ _ E), Hq. Qed.
  Lemma seen_store w f r : next (Store (GetRetained f) r) w = Some (OStore (GetRetained f) (RMessages (mem_get_retained f (w_store w))), r (RMessages (mem_get_retained f (w_store w)))).
  Proof. reflexivity. Qed.
  Lemma calm_step cfg x m y i : mstep cfg x m = Some (y, i) -> willfree [i] -> undisturbed t [i] -> calm x ->
    calm y /\ look (w_store (cn_world y)) = look (w_store (cn_world x)).
  Proof.
    intros Hm Hf Hu [Hw Hk]. apply mstep_inv in Hm.
    destruct Hm as [(e & -> & -> & He & Ha & ->)|[(c & -> & -> & Ha & ->)|(c & k & o & k1 & -> & -> & Ha & Hx & Hy & ->)]].
    - split; [|reflexivity]. split; [exact Hw|]. cbn [cn_tasks]. intros d k. rewrite (aget_aput Nat.eqb Nat.eqb_eq). destruct (Nat.eqb d (event_conn e)); [|apply Hk].
      intros E. injection E as <-. eapply rc_handler; [reflexivity|intros _; apply Hu; left; reflexivity|]. intros d0 k u a w ->. apply (Hf d0 k u a). left. reflexivity.
    - split; [|reflexivity]. split; [exact Hw|]. cbn [cn_tasks]. intros d k. rewrite (aget_adel Nat.eqb Nat.eqb_eq). destruct (Nat.eqb d c); [discriminate|apply Hk].
    - destruct (rcode_next true c _ _ _ _ (Hk _ _ Ha) Hw Hx) as (N1 & N2 & N3). split; [|exact (N3 eq_refl)]. split; [exact N1|]. cbn [cn_tasks]. intros d k2.
      rewrite (aget_aput Nat.eqb Nat.eqb_eq). destruct (Nat.eqb d c); [|apply Hk]. intros E. injection E as <-. exact N2.
  Qed.
  Lemma undisturbed_app a b : undisturbed t (a ++ b) -> undisturbed t a /\ undisturbed t b.
  Proof. intros H. split; intros e He; apply H, in_or_app; auto. Qed.
  Lemma calm_runs cfg x tr y : mruns cfg x tr y -> willfree tr -> undisturbed t tr -> calm x -> calm y /\ look (w_store (cn_world y)) = look (w_store (cn_world x)).
  Proof.
    induction 1 as [x|x m x1 i tr x2 Hm Hr IH]; intros Hf Hu H; [split; [exact H|reflexivity]|]. change (i :: tr) with ([i] ++ tr) in *. apply willfree_app in Hf. apply undisturbed_app in Hu.
    destruct (calm_step _ _ _ _ _ Hm (proj1 Hf) (proj1 Hu) H) as [H1 H2]. destruct (IH (proj2 Hf) (proj2 Hu) H1) as [H3 H4]. split; [exact H3|congruence].
  Qed.
  Lemma calm_on st : rstore st -> calm (conf_on st).
  Proof. intros H. split; [|discriminate]. split; [intros i s E; destruct i; discriminate|exact H]. Qed.
  (** what a look at the store shows *)
  Lemma filter_none {A} (p : A -> bool) l : (forall x, In x l -> p x = false) -> filter p l = [].
  Proof. induction l as [|a l IH]; intros H; [reflexivity|]. cbn. rewrite (H a (or_introl eq_refl)). apply IH. intros x Hx. apply H. right. exact Hx. Qed.
  Lemma seen_retained f m : rstore m -> topic_filter f -> matches f t ->
    filter (on_topic t) (mem_get_retained f m) = match look m with Some g => [with_retain true g] | None => [] end.
  Proof.
    intros (_ & Hn & Hk) Hf Hm. assert (Hl : topic_matches_filter t (levels f) = true) by (apply topic_matches_filter_iff; [apply filter_ok_levels; apply subscribe_filter_iff; [apply topic_filter_utf8, Hf|exact Hf]|exact Hm]).
    unfold mem_get_retained, look. revert Hn Hk. induction (ms_retained m) as [|[t1 g] l IH]; intros Hn Hk; [reflexivity|].
    assert (E1 : mg_topic g = t1) by (apply Hk; cbn; rewrite beqb_refl; reflexivity). cbn [akeys map fst] in Hn. inversion Hn as [|? ? Hni Hn']; subst.
    assert (Hk' : forall t' g', aget bytes_eqb t' l = Some g' -> mg_topic g' = t').
    { intros t' g' E. apply Hk. cbn. destruct (bytes_eqb t' (mg_topic g)) eqn:Eq; [|exact E]. apply beqb_spec in Eq. subst t'. destruct Hni. apply (aget_some_key bytes_eqb beqb_spec). eauto. }
    specialize (IH Hn' Hk'). cbn [aget filter fst]. destruct (bytes_eqb t (mg_topic g)) eqn:Eq.
    - apply beqb_spec in Eq. rewrite <- Eq, Hl. cbn [map snd filter on_topic]. unfold on_topic at 1. cbn [with_retain mg_topic]. rewrite <- Eq. destruct (list_eq_dec N.eq_dec t t) as [_|n]; [|contradiction].
      f_equal. apply filter_none. intros x Hx. apply in_map_iff in Hx. destruct Hx as ([t2 g2] & <- & Hx). apply filter_In in Hx. destruct Hx as [Hx _].
      unfold on_topic. cbn [snd with_retain mg_topic]. destruct (list_eq_dec N.eq_dec (mg_topic g2) t) as [E|]; [|reflexivity]. destruct Hni. rewrite <- Eq.
      apply (in_aget bytes_eqb beqb_spec) in Hx; [|exact Hn']. apply (aget_some_key bytes_eqb beqb_spec). exists g2. rewrite <- E. rewrite (Hk' _ _ Hx) in *. rewrite E in Hx |- *. exact Hx.
    - destruct (topic_matches_filter (mg_topic g) (levels f)); [|exact IH]. cbn [map snd filter]. unfold on_topic at 1. cbn [with_retain mg_topic].
      destruct (list_eq_dec N.eq_dec (mg_topic g) t) as [E|]; [|exact IH]. rewrite E, beqb_refl in Eq. discriminate.
  Qed.
  Lemma calm_found cfg x tr y f ms : mruns cfg x tr y -> willfree tr -> undisturbed t tr -> calm x -> topic_filter f -> matches f t -> found f ms tr ->
    filter (on_topic t) ms = match look (w_store (cn_world x)) with Some g => [with_retain true g] | None => [] end.
  Proof.
    intros Hr Hf Hu Hx Htf Hm (d & Hin). induction Hr as [x|x m x1 i tr x2 Hs Hr IH]; [destruct Hin|]. change (i :: tr) with ([i] ++ tr) in *. apply willfree_app in Hf. apply undisturbed_app in Hu.
    destruct (calm_step _ _ _ _ _ Hs (proj1 Hf) (proj1 Hu) Hx) as [H1 H2]. apply in_app_or in Hin. destruct Hin as [[->|[]]|Hin].
    - apply mstep_inv in Hs. destruct Hs as [(e & _ & E & _)|[(c & _ & E & _)|(c & k & o & k1 & -> & E & Ha & Hn & Hy & ->)]]; try discriminate. injection E as <- <-.
      assert (Ems : ms = mem_get_retained f (w_store (cn_world x))).
      { destruct k; cbn in Hn; try discriminate; [destruct (nth_error _ _); [|discriminate]; destruct (f0 _ _); discriminate|]. inversion Hn. subst. cbn in *. congruence. }
      rewrite Ems. apply seen_retained; [apply Hx|exact Htf|exact Hm].
    - rewrite <- H2. apply IH; [apply Hf|apply Hu|exact H1|exact Hin].
  Qed.

  (** ** The handler of the PUBLISH *)
  Definition pending (c : nat) (mo : option message) (x : conf) : Prop :=
    rworld (cn_world x) /\ (exists k, aget Nat.eqb c (cn_tasks x) = Some k /\ until mo k) /\ forall d k, d <> c -> aget Nat.eqb d (cn_tasks x) = Some k -> rcode true k.
  Lemma pending_step cfg c mo x m y i : mstep cfg x m = Some (y, i) -> willfree [i] -> undisturbed t [i] -> pending c mo x ->
    (pending c mo y /\ ~ confirmed c [i]) \/ (calm y /\ look (w_store (cn_world y)) = mo).
  Proof.
    intros Hm Hf Hu (Hw & (kc & Hc & Huc) & Hk). apply mstep_inv in Hm.
    destruct Hm as [(e & -> & -> & He & Ha & ->)|[(d & -> & -> & Ha & ->)|(d & k & o & k1 & -> & -> & Ha & Hx & Hy & ->)]].
    - left. assert (Hne : c <> event_conn e) by congruence. split; [|intros [[K|[]]|(o & [K|[]])]; discriminate]. split; [exact Hw|]. cbn [cn_tasks]. split.
      + exists kc. rewrite (aget_aput Nat.eqb Nat.eqb_eq). destruct (Nat.eqb c (event_conn e)) eqn:E; [apply Nat.eqb_eq in E; contradiction|]. split; assumption.
      + intros d k Hd. rewrite (aget_aput Nat.eqb Nat.eqb_eq). destruct (Nat.eqb d (event_conn e)); [|apply Hk, Hd].
        intros E. injection E as <-. eapply rc_handler; [reflexivity|intros _; apply Hu; left; reflexivity|]. intros d0 k u a w ->. apply (Hf d0 k u a). left. reflexivity.
    - left. assert (Hne : d <> c) by (intros ->; rewrite Ha in Hc; injection Hc as <-; exact Huc). split; [|intros [[K|[]]|(o & [K|[]])]; congruence]. split; [exact Hw|]. cbn [cn_tasks]. split.
      + exists kc. rewrite (aget_adel Nat.eqb Nat.eqb_eq). destruct (Nat.eqb c d) eqn:E; [apply Nat.eqb_eq in E; congruence|]. split; assumption.
      + intros d' k Hd. rewrite (aget_adel Nat.eqb Nat.eqb_eq). destruct (Nat.eqb d' d); [discriminate|apply Hk, Hd].
    - destruct (Nat.eq_dec d c) as [->|Hne].
      + rewrite Ha in Hc. injection Hc as <-. destruct (until_next _ c _ _ _ _ Huc Hw Hx) as (N1 & N2 & _ & N3).
        assert (Hk' : forall d k2, d <> c -> aget Nat.eqb d (aput Nat.eqb c k1 (cn_tasks x)) = Some k2 -> rcode true k2).
        { intros d k2 Hd. rewrite (aget_aput Nat.eqb Nat.eqb_eq). destruct (Nat.eqb d c) eqn:E; [apply Nat.eqb_eq in E; contradiction|apply Hk, Hd]. }
        destruct N3 as [N3|[N3 N4]].
        * left. split; [|intros [[K|[]]|(z & [K|[]])]; [discriminate|]; injection K as ->; exact (N2 _ eq_refl)]. split; [exact N1|]. split; [|exact Hk'].
          exists k1. split; [|exact N3]. cbn [cn_tasks]. rewrite (aget_aput Nat.eqb Nat.eqb_eq), Nat.eqb_refl. reflexivity.
        * right. split; [|exact N4]. split; [exact N1|]. intros d k2 E. destruct (Nat.eq_dec d c) as [->|Hd]; [|exact (Hk' _ _ Hd E)].
          cbn [cn_tasks] in E. rewrite (aget_aput Nat.eqb Nat.eqb_eq), Nat.eqb_refl in E. injection E as <-. exact N3.
      + left. destruct (rcode_next true d _ _ _ _ (Hk _ _ Hne Ha) Hw Hx) as (N1 & N2 & _). split; [|intros [[K|[]]|(z & [K|[]])]; congruence]. split; [exact N1|]. cbn [cn_tasks]. split.
        * exists kc. rewrite (aget_aput Nat.eqb Nat.eqb_eq). destruct (Nat.eqb c d) eqn:E; [apply Nat.eqb_eq in E; congruence|]. split; assumption.
        * intros d' k2 Hd. rewrite (aget_aput Nat.eqb Nat.eqb_eq). destruct (Nat.eqb d' d); [|apply Hk, Hd]. intros E. injection E as <-. exact N2.
  Qed.
  Lemma pending_runs cfg c mo x tr y : mruns cfg x tr y -> willfree tr -> undisturbed t tr -> pending c mo x -> confirmed c tr -> calm y /\ look (w_store (cn_world y)) = mo.
  Proof.
    induction 1 as [x|x m x1 i tr x2 Hm Hr IH]; intros Hf Hu H Hc; [destruct Hc as [[]|(o & [])]|]. change (i :: tr) with ([i] ++ tr) in *. apply willfree_app in Hf. apply undisturbed_app in Hu.
    destruct (pending_step _ _ _ _ _ _ _ Hm (proj1 Hf) (proj1 Hu) H) as [[H1 H2]|[H1 H2]].
    - apply IH; try apply Hf; try apply Hu; try exact H1. unfold confirmed in *. destruct Hc as [Hc|(o & Hc)]; apply in_app_or in Hc; destruct Hc as [Hc|Hc]; eauto; destruct H2; eauto.
    - destruct (calm_runs _ _ _ _ Hr (proj2 Hf) (proj2 Hu) H1) as [H3 H4]. split; [exact H3|congruence].
  Qed.
End Topic.
