(** Room for messages in flight, for interleaved handlers. *)
From Verif Require Import Base Utf8 Codec SpecCodec Tac CodecFacts Maps Topic SpecTopic Property PacketProps Packets SpecPackets TopicTree TreeFacts Storage StorageFacts Broker Auth
  Session SessionFacts Server SpecServer ServerFacts HandlerFacts HistoryFacts ProvenanceFacts Conc ConcFacts SpecConc ConcProv SpecOutput OutputFacts BoundFacts SpecConcOutput SpecLives.

(** ** Messages with identifiers of two bytes, everywhere *)
Definition wfm (m : message) : Prop := match mg_packet_id m with Some i => wf_id i | None => True end.
Definition wfs (s : session) : Prop := small s /\ forall f st, aget bytes_eqb f (se_subs s) = Some st -> Forall wfm (st_retained st).
Definition wft (n : node message) : Prop := forall q m, In m (log_at q n) -> wfm m.
Record wfstore (st : mem_store) : Prop := {
  wo_retained : forall t m, In (t, m) (ms_retained st) -> wfm m;
  wo_inflight : forall cid l, aget bytes_eqb cid (ms_inflight st) = Some l -> idmap l
}.
Definition op_ok (o : sop) : Prop :=
  match o with StoreRetained _ (Some m) => wfm m | StoreInflight _ pid _ => wf_id pid | _ => True end.
Definition res_ok (r : sres) : Prop :=
  match r with RMessages ms => Forall wfm ms | RInflights l => N.of_nat (length l) <= 65536 | _ => True end.
Lemma wfm_retain b m : wfm m -> wfm (with_retain b m).
Proof. intros H. exact H. Qed.
Lemma store_ok m o : wfstore m -> op_ok o -> wfstore (snd (mem_step m o)) /\ res_ok (fst (mem_step m o)).
Proof.
  intros [H1 H2] Ho. assert (Hself : wfstore m) by (constructor; assumption).
  destruct o as [id st|id|id| |t [x|]|f| |id x|id|id|id pid x|id pid|id pid|id]; cbn [mem_step fst snd res_ok]; (split; [|try exact I]); try exact Hself.
  - constructor; simpl; auto.
  - constructor; simpl; auto.
  - constructor; simpl; auto. intros t' y Hy. apply (in_aput_weak bytes_eqb beqb_spec) in Hy. destruct Hy as [Hy|Hy]; eauto. injection Hy as _ ->. exact Ho.
  - constructor; simpl; auto. intros t' y Hy. apply (in_adel bytes_eqb beqb_spec) in Hy. eapply H1, Hy.
  - unfold mem_get_retained. apply Forall_forall. intros y Hy. apply in_map_iff in Hy. destruct Hy as ((t & x) & <- & Hx). apply filter_In in Hx. apply wfm_retain. eapply H1, Hx.
  - constructor; simpl; auto. contradiction.
  - constructor; simpl; auto.
  - constructor; simpl; auto.
  - constructor; simpl; auto. intros cid l. rewrite aget_aput by apply beqb_spec. destruct (bytes_eqb cid id); [|apply H2]. intros E. injection E as <-.
    apply idmap_aput; [exact Ho|]. unfold inflight_of. destruct (aget bytes_eqb id (ms_inflight m)) eqn:E; [eapply H2, E|apply idmap_nil].
  - unfold mem_remove_inflight. destruct (aget bytes_eqb id (ms_inflight m)) as [l1|] eqn:E1; [|exact Hself]. constructor; simpl; auto.
    intros cid l. rewrite aget_aput by apply beqb_spec. destruct (bytes_eqb cid id); [|apply H2]. intros E. injection E as <-. apply idmap_adel. eapply H2, E1.
  - unfold mem_get_all_inflight. destruct (aget bytes_eqb id (ms_inflight m)) as [l|] eqn:E; [|cbn; lia]. unfold avals. rewrite map_length. apply idmap_length. eapply H2, E.
Qed.

(** ** Programs that keep to this and write at most [b] packets *)
Fixpoint bnd (b : N) (k : code) : Prop :=
  match k with
  | Finish => True
  | Emit _ k => 0 < b /\ bnd (b - 1) k
  | Sess _ f => forall s n, wfs s -> wft n -> wfs (fst (f s n)) /\ bnd b (snd (f s n))
  | Sub _ k => forall p, bnd b (k p)
  | Walk _ k => forall ps, bnd b (k ps)
  | Send _ m k => wfm m /\ bnd b k
  | Store o k => op_ok o /\ forall r, res_ok r -> bnd b (k r)
  | Find _ k => forall r, bnd b (k r)
  | New _ s k => wfs s /\ forall i, bnd b (k i)
  | Leave k | Forget _ k | Attach _ k | Detach k | Acquire _ k | Conc.Release _ k => bnd b k
  end.
Lemma bnd_more k : forall b b', b <= b' -> bnd b k -> bnd b' k.
Proof.
  induction k using code_induction; intros b b' Hb; cbn [bnd]; eauto.
  - intros [H1 H2]. split; [lia|]. eapply IHk; [|exact H2]. lia.
  - intros H1 s n Hs Hn. destruct (H1 s n Hs Hn) as [H2 H3]. split; [exact H2|]. eapply H; eauto.
  - intros [H1 H2]. split; eauto.
  - intros [H1 H2]. split; eauto.
  - intros [H1 H2]. split; eauto.
Qed.
Section Bnd.
  Context (cfg : config) (c : nat).
  Lemma bd_publish b t m k : wfm m -> bnd b k -> bnd b (publish t m k).
  Proof.
    intros Hm H. assert (Hr : bnd b (route t m k)) by (simpl; intros ps; induction ps; simpl; auto).
    unfold publish. destruct (mg_retain m); [destruct (mg_payload m) as [[|]|]|]; cbn [bnd op_ok]; auto.
  Qed.
  Lemma wfm_will x : wfm (will_message x).
  Proof. exact I. Qed.
  Lemma wfs_will s x : wfs s -> wfs (set_will x s).
  Proof. intros H. exact H. Qed.
  Lemma bd_end i : bnd 1 (end_code c i).
  Proof.
    unfold end_code. cbn [bnd fst snd]. intros s n Hs _. split; [apply wfs_will, Hs|]. destruct (se_will s); [|cbn [bnd]; split; [lia|exact I]].
    apply bd_publish; [apply wfm_will|]. unfold client_id_of. cbn [bnd fst snd op_ok]. intros s1 _ H1 _. split; [exact H1|]. intros s2 _ H2 _. split; [exact H2|].
    split; [exact I|]. intros. split; [lia|exact I].
  Qed.
  Lemma bd_respond r : bnd 1 (respond c r).
  Proof. destruct r; cbn [respond bnd]; [split; [lia|]|]; exact I. Qed.
  Lemma wfs_sub s f st : wfs s -> Forall wfm (st_retained st) -> wfs (set_subs (aput bytes_eqb f st (se_subs s)) s).
  Proof.
    intros [H1 H2] Hf. split; [exact H1|]. cbn [set_subs se_subs]. intros g x. rewrite aget_aput by apply beqb_spec. destruct (bytes_eqb g f); [|apply H2].
    intros E. injection E as <-. exact Hf.
  Qed.
  Lemma bd_one b i f k : bnd b k -> bnd b (subscribe_one i f k).
  Proof.
    intros H. unfold subscribe_one. cbn [bnd fst snd op_ok]. intros n. split; [exact I|]. intros r Hr s n' Hs _. split; [|exact H].
    apply wfs_sub; [exact Hs|]. cbn [st_retained]. destruct r; try constructor. exact Hr.
  Qed.
  Lemma bd_sub b i fs : forall k, (forall rs, bnd b (k rs)) -> bnd b (subscribe_all i fs k).
  Proof. induction fs as [|[f o] fs IH]; intros k H; cbn [subscribe_all]; [apply H|]. destruct (validate_subscribe_filter f); [auto|]. apply bd_one. auto. Qed.
  Lemma bd_id b i k : (forall id, bnd b (k id)) -> bnd b (client_id_of i k).
  Proof. intros H. unfold client_id_of. cbn [bnd fst snd]. auto. Qed.
  Lemma bd_save b i k : bnd b k -> bnd b (save_subscriptions i k).
  Proof. intros H. apply bd_id. intros id. cbn [bnd fst snd op_ok]. auto. Qed.
  Lemma bd_remove b i n k : bnd b k -> bnd b (remove_inflight i n k).
  Proof. intros H. apply bd_id. intros id. cbn [bnd op_ok]. auto. Qed.
  Lemma bd_simple i h after : (forall s, wfs s -> wfs (snd (h s))) -> (forall k, bnd 1 k -> bnd 1 (after k)) -> bnd 1 (simple_code c i h after).
  Proof.
    intros Hs Ha. unfold simple_code. cbn [bnd]. intros s n H _. specialize (Hs s H). destruct (h s) as [[r| |] t]; cbn [fst snd] in *; (split; [exact Hs|]);
      [apply Ha, bd_respond|apply bd_end|cbn [bnd]; split; [lia|exact I]].
  Qed.
  Lemma wfs_small s s' : se_subs s' = se_subs s -> small s' -> wfs s -> wfs s'.
  Proof. intros E H [_ H2]. split; [exact H|]. rewrite E. exact H2. Qed.
  Lemma wfs_subset s (l : list (bytes * stream)) : wfs s -> (forall f st, aget bytes_eqb f l = Some st -> aget bytes_eqb f (se_subs s) = Some st) -> wfs (set_subs l s).
  Proof. intros [H1 H2] H. split; [exact H1|]. cbn [set_subs se_subs]. intros f st E. eapply H2, H, E. Qed.
  Lemma unsub_subset fs : forall subs f st, aget bytes_eqb f (snd (unsubscribe_loop fs subs)) = Some st -> aget bytes_eqb f subs = Some st.
  Proof.
    induction fs as [|g fs IH]; intros subs f st; cbn [unsubscribe_loop]; [auto|]. cbv zeta. specialize (IH (adel bytes_eqb g subs) f st).
    destruct (unsubscribe_loop fs (adel bytes_eqb g subs)) as [rs subs']. cbn [snd] in *. intros H. apply IH in H.
    rewrite aget_adel in H by apply beqb_spec. destruct (bytes_eqb f g); [discriminate|exact H].
  Qed.
  Lemma bd_packet i k : received k -> bnd 1 (packet_code cfg c i k).
  Proof.
    intros Hr. destruct k as [k|k|p|a|a|a|a|p|k|p|k| | |d|a]; cbn [packet_code]; try apply bd_end.
    - pose proof (received_publish p Hr) as (Hp & _). unfold publish_code. destruct (validate_publish_topic _); [apply bd_end|].
      assert (Hm : wfm (message_of p)) by (unfold wfm; cbn; destruct (pb_qos p), (pb_packet_id p); try contradiction; auto).
      assert (Hgo : forall r, bnd 1 (publish (pb_topic p) (message_of p) (match r with Some x => respond c x | None => end_code c i end))).
      { intros [x|]; apply bd_publish; auto using bd_respond, bd_end. }
      destruct (pb_qos p); [|destruct (pb_packet_id p) as [n|] eqn:E|destruct (pb_packet_id p) as [n|] eqn:E|]; try first [exact (Hgo None)|exact (Hgo (Some None))|exact (Hgo (Some (Some _)))].
      intros s t Hs _. cbn [fst snd]. split; [|exact (Hgo (Some (Some _)))]. apply (wfs_small s); [reflexivity| |exact Hs]. destruct Hs as [[H1 H2] _]. split; cbn; [|exact H2]. apply idmap_aput; auto.
    - apply bd_simple; [|auto using bd_remove]. intros s Hs. apply (wfs_small s); [reflexivity| |exact Hs]. destruct Hs as [[H1 H2] _]. split; cbn; auto using idmap_adel.
    - pose proof (received_ack _ a (or_intror (or_introl eq_refl)) Hr) as Hi. apply bd_simple; [|auto]. intros s Hs. apply (wfs_small s); [reflexivity| |exact Hs].
      destruct Hs as [[H1 H2] _]. split; cbn; auto using idmap_adel, idmap_aput.
    - apply bd_simple; [|auto]. intros s Hs. apply (wfs_small s); [reflexivity| |exact Hs]. destruct Hs as [[H1 H2] _]. split; cbn; auto using idmap_adel.
    - apply bd_simple; [|auto using bd_remove]. intros s Hs. apply (wfs_small s); [reflexivity| |exact Hs]. destruct Hs as [[H1 H2] _]. split; cbn; auto using idmap_adel.
    - intros s n Hs _. cbn [fst snd]. split; [exact Hs|]. apply bd_sub. intros rs. change (bnd 1 (save_subscriptions i (Emit (Sent c (SubAck (Mk_suback_packet (c_protocol_version (se_connect s)) (sb_packet_id p) None rs))) Finish))).
      apply bd_save. cbn [bnd]. split; [lia|exact I].
    - intros s n Hs _. pose proof (unsub_subset (us_payload p) (se_subs s)) as Hu. destruct (unsubscribe_loop (us_payload p) (se_subs s)) as [rs subs]. cbn [fst snd] in *.
      split; [apply wfs_subset; auto|]. apply bd_save. cbn [bnd]. split; [lia|exact I].
    - apply bd_respond.
    - intros s n Hs _. cbn [fst snd]. split; [apply wfs_will, Hs|]. apply bd_id. intros id. cbn [bnd op_ok]. split; [exact I|]. intros. apply bd_end.
    - apply bd_simple; [|auto]. intros s Hs. unfold handle_auth. destruct (sv_manager cfg); [|exact Hs]. repeat case_match; exact Hs.
  Qed.
  Lemma bd_emits b os k : bnd b k -> bnd (N.of_nat (length os) + b) (emits os k).
  Proof.
    intros H. induction os as [|o os IH]; cbn [emits length]; [exact H|]. cbn [bnd]. split; [lia|].
    replace (N.of_nat (S (length os)) + b - 1) with (N.of_nat (length os) + b) by lia. exact IH.
  Qed.
  Lemma bd_restore i subs wl infl : N.of_nat (length infl) <= 65536 -> bnd 65536 (restore_code c i subs wl infl).
  Proof.
    intros Hl. unfold restore_code. cbv zeta. set (rest := emits _ _).
    assert (Hr : bnd 65536 rest).
    { apply bnd_more with (N.of_nat (length infl) + 0); [lia|]. unfold rest. rewrite <- (map_length (fun x => Sent c (Publish (retry_publish x)))). apply bd_emits. exact I. }
    set (wills := match wl with Some x => _ | None => _ end).
    assert (Hw : bnd 65536 wills) by (unfold wills; destruct wl; [|exact Hr]; intros s n Hs _; cbn [fst snd]; split; [apply wfs_will, Hs|exact Hr]).
    destruct subs as [|f fs]; [exact Hw|]. change (bnd 65536 (restore_all i (f :: fs) (Conc.Release (LSession i) wills))).
    induction (f :: fs); cbn [restore_all]; [exact Hw|]. apply bd_one, IHl.
  Qed.
  Lemma wfs_begin u r s : wfs s -> wfs (snd (begin u r s)).
  Proof. unfold begin. repeat case_match; intros H; exact H. Qed.
  Lemma bd_begin i u a r subs wl infl : N.of_nat (length infl) <= 65536 -> bnd 65537 (begin_code c i u a r subs wl infl).
  Proof.
    intros Hl. unfold begin_code. cbn [bnd]. intros s n Hs _. pose proof (wfs_begin u r s Hs) as Hb. destruct (begin u r s) as [ack t]. cbn [fst snd] in *. split; [exact Hb|].
    destruct a; [|cbn [bnd]; split; [lia|exact I]]. change (0 < 65537 /\ bnd 65536 (client_id_of i (fun id =>
             Store (SaveSession id (Mk_session_state id subs false)) (fun _ =>
               Sess i (fun s _ => (s,
                 let rest := Conc.Release LManager (restore_code c i subs wl infl) in
                 match se_will s with
                 | Some x => Store (StoreWill id x) (fun _ => rest)
                 | None => rest
                 end)))))). split; [lia|]. apply bd_id. intros id. cbn [bnd fst snd op_ok]. split; [exact I|]. intros _ _ s1 _ H1 _. split; [exact H1|]. cbv zeta.
    destruct (se_will s1); cbn [bnd op_ok]; [split; [exact I|intros _ _]|]; apply bd_restore, Hl.
  Qed.
  Lemma wfs_new k : wfs (session_new k).
  Proof. split; [split; apply idmap_nil|discriminate]. Qed.
  Lemma bd_connect k u a : bnd 65537 (connect_code cfg c k u a).
  Proof.
    unfold connect_code. destruct (negb _); [cbn [bnd]; repeat split; lia|]. cbv zeta.
    assert (Hg : forall r subs wl infl, N.of_nat (length infl) <= 65536 -> bnd 65537 (enter_code k (fun i => begin_code c i u a r subs wl infl))).
    { intros r subs wl infl Hl. unfold enter_code. cbv zeta. cbn [bnd]. intros [i|]; [|split; [apply wfs_new|intros i; apply bd_begin, Hl]].
      intros s n Hs Hn. cbn [fst snd]. split; [exact Hs|apply bd_begin, Hl]. }
    assert (H0 : N.of_nat (length (@nil inflight)) <= 65536) by (cbn; lia).
    match goal with |- bnd ?n (Acquire _ ?z) => change (bnd n z) end.
    destruct (cf_clean_start _).
    - cbn [bnd op_ok]. split; [exact I|]. intros _ _. split; [exact I|]. intros _ _. apply Hg, H0.
    - cbn [bnd]. intros [i|]; [apply Hg, H0|]. cbn [bnd op_ok]. split; [exact I|]. intros r _. destruct r as [| [st|] | | | | |]; try apply Hg, H0.
      cbn [bnd op_ok]. split; [exact I|]. intros rw _. split; [exact I|]. intros ri Hri. apply Hg. destruct ri; try exact H0. exact Hri.
  Qed.
  Lemma wfs_out f s n r s' : wfs s -> wft n -> process_outgoing f s (Mk_broker n mem_new) = Some (r, s') ->
    wfs s' /\ forall p, r = Ok p -> match pb_packet_id p with Some i => wf_id i | None => True end.
  Proof.
    intros Hs Hn H. unfold process_outgoing in H. destruct (aget bytes_eqb f (se_subs s)) as [st|] eqn:Est; [|discriminate].
    destruct (stream_next _ st) as [[m st']|] eqn:En; [|discriminate].
    assert (Hm : wfm m /\ Forall wfm (st_retained st')).
    { pose proof (proj2 Hs _ _ Est) as Hret. unfold stream_next in En. destruct (st_retained st) as [|y ys].
      - cbn [bk_tree] in En. assert (Hg : forall (lg : list message) nx v nx', recv lg nx = (Got v, nx') -> In v lg).
        { intros lg nx v nx'. unfold recv. cbv zeta. destruct (Nat.ltb _ _); [discriminate|]. destruct (nth_error lg nx) eqn:E; [|discriminate]. intros Hx. injection Hx as <- _. eapply nth_error_In, E. }
        destruct (recv (log_at (levels f) n) (st_next st)) as [[v|k|] nx] eqn:E1; [|destruct (recv _ nx) as [[v|k'|] nx'] eqn:E2|]; try discriminate;
          injection En as <- <-; (split; [eapply Hn, Hg; eassumption|constructor]).
      - injection En as <- <-. inversion Hret; subst. split; auto. }
    destruct Hm as [Hm Hret]. assert (Hs1 : wfs (set_subs (aput bytes_eqb f st' (se_subs s)) s)) by (apply wfs_sub; assumption).
    assert (Hid : match pb_packet_id (outgoing_publish f m) with Some i => wf_id i | None => True end) by exact Hm.
    destruct (mg_packet_id m) as [i|] eqn:Ei; [destruct (mg_qos m) eqn:Eq|]; inversion H; subst r s'; (split; [|intros p E; inversion E; subst; exact Hid]); auto.
    - apply (wfs_small (set_subs (aput bytes_eqb f st' (se_subs s)) s)); [reflexivity| |exact Hs1]. destruct Hs1 as [[H1 H2] _]. split; cbn; [|exact H2]. apply idmap_aput; [|exact H1]. unfold wfm in Hm. rewrite Ei in Hm. exact Hm.
    - apply (wfs_small (set_subs (aput bytes_eqb f st' (se_subs s)) s)); [reflexivity| |exact Hs1]. destruct Hs1 as [[H1 H2] _]. split; cbn; [|exact H2]. apply idmap_aput; [|exact H1]. unfold wfm in Hm. rewrite Ei in Hm. exact Hm.
  Qed.
  Lemma bd_out i f : bnd 1 (out_code c i f).
  Proof.
    unfold out_code. cbn [bnd]. intros s n Hs Hn. destruct (process_outgoing f s _) as [[r s']|] eqn:E; [|cbn [fst snd bnd]; auto].
    destruct (wfs_out _ _ _ _ _ Hs Hn E) as [H1 H2]. destruct r as [p| |]; cbn [fst snd]; (split; [exact H1|]); try (cbn [bnd]; split; [lia|exact I]).
    specialize (H2 p eq_refl). destruct (pb_packet_id p) as [pid|]; [|cbn [bnd]; split; [lia|exact I]].
    destruct (pb_qos p); try (cbn [bnd]; split; [lia|exact I]); apply bd_id; intros id; cbn [bnd op_ok]; (split; [exact H2|]); intros; (split; [lia|exact I]).
  Qed.
  Lemma bd_handler sv e : event_conn e = c -> from_network e -> bnd 65537 (handler cfg sv e).
  Proof.
    intros E He. assert (H1 : forall k, bnd 1 k -> bnd 65537 k) by (intros k; apply bnd_more; lia).
    destruct e as [d [[]|] u a|d k|d f|d|d|]; simpl in E; subst; destruct sv as [i|]; try exact I; try (apply H1; cbn [handler bnd]; split; [lia|exact I]); cbn [handler].
    - apply bd_connect.
    - apply H1, bd_packet, He.
    - apply H1, bd_out.
    - apply H1, bd_end.
  Qed.
End Bnd.

(** ** Runs *)
Record wfw (w : world) : Prop := {
  ww_heap : forall i s, nth_error (w_heap w) i = Some s -> wfs s;
  ww_tree : wft (bk_tree (w_broker w));
  ww_store : wfstore (w_store w)
}.
Definition out1 (o : obs) : N := match o with OOut _ => 1 | _ => 0 end.
Lemma bnd_next b c k w o k1 : bnd b k -> wfw w -> next k w = Some (o, k1) -> wfw (apply c o w) /\ out1 o <= b /\ bnd (b - out1 o) k1.
Proof.
  intros H Hw E. destruct Hw as [Hh Ht Hs]. assert (Hw : wfw w) by (constructor; assumption).
  assert (H0 : forall k', bnd b k' -> 0 <= b /\ bnd (b - 0) k') by (intros k' Hk; rewrite N.sub_0_r; split; [lia|exact Hk]).
  destruct k; cbn [Conc.next bnd] in *; try discriminate; try (injection E as <- <-; cbn [apply out1]; (split; [first [exact Hw|constructor; assumption]|apply H0; first [exact H|apply H]]); fail).
  - injection E as <- <-. cbn [apply out1]. split; [exact Hw|]. split; [lia|apply H].
  - destruct (nth_error (w_heap w) i) as [s|] eqn:Ei; [|discriminate]. destruct (H s (bk_tree (w_broker w)) (Hh _ _ Ei) Ht) as [H1 H2]. destruct (f s _) as [s' k']. injection E as <- <-.
    cbn [fst snd out1 apply] in *. split; [|apply H0, H2]. constructor; auto. intros j s1. unfold put_session, set_heap. cbn [w_heap]. intros Hj. destruct (Nat.eq_dec j i) as [->|Hd].
    + rewrite list_set_same in Hj by (apply nth_error_Some; congruence). injection Hj as <-. exact H1.
    + rewrite list_set_other in Hj by auto. eapply Hh, Hj.
  - injection E as <- <-. cbn [apply out1]. split; [|apply H0, H]. constructor; auto. cbn. intros q m Hm. rewrite log_at_subscribe in Hm. eapply Ht, Hm.
  - injection E as <- <-. cbn [apply out1]. destruct H as [Hm Hk]. split; [|apply H0, Hk]. constructor; auto. cbn. intros q y Hy. apply log_send_in in Hy. destruct Hy as [Hy|[-> _]]; [eapply Ht, Hy|exact Hm].
  - injection E as <- <-. cbn [apply out1]. destruct H as [Ho Hk]. destruct (store_ok _ _ Hs Ho) as [H1 H2]. split; [|apply H0, Hk, H2]. constructor; auto.
  - injection E as <- <-. cbn [apply out1]. destruct H as [Hn Hk]. split; [|apply H0, Hk]. constructor; auto. intros j s1. unfold set_manager, set_heap. cbn [w_heap]. intros Hj.
    destruct (Nat.lt_ge_cases j (length (w_heap w))) as [Hl|Hl]; [rewrite nth_error_app1 in Hj by exact Hl; eapply Hh, Hj|].
    rewrite nth_error_app2 in Hj by exact Hl. destruct (j - length (w_heap w))%nat as [|q]; simpl in Hj; [injection Hj as <-; exact Hn|destruct q; discriminate].
Qed.
Definition wfc (x : conf) : Prop := wfw (cn_world x) /\ forall c k, aget Nat.eqb c (cn_tasks x) = Some k -> bnd 65537 k.
Lemma wfc_step cfg x m x1 i : wfc x -> (forall e, i = IStart e -> from_network e) -> mstep cfg x m = Some (x1, i) -> wfc x1.
Proof.
  intros [Hw Hk] Hn Hm. apply mstep_inv in Hm.
  destruct Hm as [(e & -> & -> & He & Ha & ->)|[(c & -> & -> & Ha & ->)|(c & k & o & k1 & -> & -> & Ha & Hx & Hy & ->)]]; (split; cbn [cn_world cn_tasks]); auto.
  - intros c k. rewrite (aget_aput Nat.eqb Nat.eqb_eq). destruct (Nat.eqb c _); [|apply Hk]. intros E. injection E as <-. eapply bd_handler; [reflexivity|apply Hn; reflexivity].
  - intros d k. rewrite (aget_adel Nat.eqb Nat.eqb_eq). destruct (Nat.eqb d c); [discriminate|apply Hk].
  - eapply bnd_next; eauto.
  - intros d k2. rewrite (aget_aput Nat.eqb Nat.eqb_eq). destruct (Nat.eqb d c); [|apply Hk]. intros E. injection E as <-.
    destruct (bnd_next _ c _ _ _ _ (Hk _ _ Ha) Hw Hx) as (_ & _ & H). eapply bnd_more; [|exact H]. lia.
Qed.
Lemma wfc_runs cfg x tr y : mruns cfg x tr y -> over_network tr -> wfc x -> wfc y.
Proof.
  induction 1 as [|x m x1 i tr x2 Hm Hr IH]; intros Hn Hx; [exact Hx|]. apply IH; [intros e He; apply Hn; right; exact He|].
  eapply wfc_step; eauto. intros e ->. apply Hn. left. reflexivity.
Qed.
Lemma wfc_on st : wfstore st -> wfc (conf_on st).
Proof.
  intros H. split; [|discriminate]. constructor; [intros i s E; destruct i; discriminate| |exact H]. intros q m E. unfold log_at in E. destruct q; simpl in E; contradiction.
Qed.
Lemma wf_mem_new : wfstore mem_new.
Proof. constructor; [intros t m []|discriminate]. Qed.
Lemma lives_wfstore cfg trs st : lives cfg trs st -> Forall over_network trs -> wfstore st.
Proof.
  induction 1 as [|trs st tr x Hl IH Hr Ht]; intros Hn; [apply wf_mem_new|]. apply Forall_app in Hn. destruct Hn as [H1 H2]. inversion H2; subst.
  eapply ww_store, (wfc_runs _ _ _ _ Hr); [assumption|]. apply wfc_on, IH, H1.
Qed.
(** What one connection writes until its handler returns. *)
Lemma outputs_cons c i tr : N.of_nat (length (outputs_of c (i :: tr))) =
  match i with IStep d (OOut _) => if Nat.eqb d c then 1 else 0 | _ => 0 end + N.of_nat (length (outputs_of c tr)).
Proof. unfold outputs_of. cbn [flat_map]. rewrite app_length. destruct i as [e|d o|d]; try reflexivity. destruct o; try reflexivity. destruct (Nat.eqb d c); cbn [length]; lia. Qed.
Lemma writes_bounded cfg c x tr y : mruns cfg x tr y -> over_network tr -> wfc x -> ~ In (IEnd c) tr ->
  forall b k, aget Nat.eqb c (cn_tasks x) = Some k -> bnd b k -> N.of_nat (length (outputs_of c tr)) <= b.
Proof.
  induction 1 as [|x m x1 i tr x2 Hm Hr IH]; intros Hn Hx Hs b k Hk Hb; [apply N.le_0_l|]. rewrite outputs_cons.
  assert (Hx1 : wfc x1) by (eapply wfc_step; eauto; intros e ->; apply Hn; left; reflexivity).
  assert (Hn1 : over_network tr) by (intros e He; apply Hn; right; exact He).
  assert (Hs1 : ~ In (IEnd c) tr) by (intros He; apply Hs; right; exact He).
  pose proof Hm as Hm'. apply mstep_inv in Hm'.
  destruct Hm' as [(e & -> & -> & He & Ha & ->)|[(d & -> & -> & Ha & ->)|(d & k0 & o & k1 & -> & -> & Ha & Hq & Hy & ->)]]; cbn [cn_tasks] in *.
  - apply (IH Hn1 Hx1 Hs1) with k; [|exact Hb]. cbn [cn_tasks]. rewrite (aget_aput Nat.eqb Nat.eqb_eq). destruct (Nat.eqb c (event_conn e)) eqn:E; [|exact Hk].
    apply Nat.eqb_eq in E. congruence.
  - apply (IH Hn1 Hx1 Hs1) with k; [|exact Hb]. cbn [cn_tasks]. rewrite (aget_adel Nat.eqb Nat.eqb_eq). destruct (Nat.eqb c d) eqn:E; [|exact Hk].
    apply Nat.eqb_eq in E. exfalso. apply Hs. left. congruence.
  - destruct (Nat.eqb d c) eqn:E.
    + apply Nat.eqb_eq in E. subst d. rewrite Hk in Ha. injection Ha as <-. destruct (bnd_next _ c _ _ _ _ Hb (proj1 Hx) Hq) as (_ & H1 & H2).
      assert (Hi : N.of_nat (length (outputs_of c tr)) <= b - out1 o).
      { apply (IH Hn1 Hx1 Hs1) with k1; [|exact H2]. cbn [cn_tasks]. rewrite (aget_aput Nat.eqb Nat.eqb_eq), Nat.eqb_refl. reflexivity. }
      destruct o; cbn [out1] in *; lia.
    + assert (Hi : N.of_nat (length (outputs_of c tr)) <= b).
      { apply (IH Hn1 Hx1 Hs1) with k; [|exact Hb]. cbn [cn_tasks]. rewrite (aget_aput Nat.eqb Nat.eqb_eq), Nat.eqb_sym, E. exact Hk. }
      destruct o; lia.
Qed.
Lemma handled_bounded cfg x pre e mid y c : mruns cfg x (pre ++ IStart e :: mid) y -> over_network (pre ++ IStart e :: mid) -> wfc x -> event_of c e = true ->
  ~ In (IEnd c) mid -> N.of_nat (length (outputs_of c mid)) <= 65537.
Proof.
  intros Hr Hn Hx He Hmid. apply mruns_app in Hr. destruct Hr as (x1 & H1 & H2).
  assert (Hx1 : wfc x1) by (eapply wfc_runs; eauto; intros e0 H0; apply Hn, in_or_app; auto).
  inversion H2 as [|? m x2 ? ? ? Hm Hr]; subst.
  assert (Hx2 : wfc x2) by (eapply wfc_step; eauto; intros e0 E; injection E as ->; apply Hn, in_or_app; right; left; reflexivity).
  apply mstep_inv in Hm. destruct Hm as [(e0 & -> & E & Hne & Ha & ->)|[(d & -> & E & _)|(d & k0 & o & k1 & -> & E & _)]]; try discriminate.
  injection E as <-. rewrite event_of_conn in He by exact Hne. apply Nat.eqb_eq in He. subst c.
  eapply (writes_bounded _ _ _ _ _ Hr); [|exact Hx2|exact Hmid| |].
  - intros e1 H0. apply Hn, in_or_app. right. right. exact H0.
  - cbn [cn_tasks]. rewrite (aget_aput Nat.eqb Nat.eqb_eq), Nat.eqb_refl. reflexivity.
  - apply bd_handler with (c := event_conn e); [reflexivity|]. apply Hn, in_or_app. right. left. reflexivity.
Qed.
