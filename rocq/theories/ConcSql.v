(** The store operations of interleaved handlers, on the SQLite store. *)
From Coq Require Import Permutation.
From Verif Require Import Base Utf8 Codec SpecCodec Tac CodecFacts Maps Topic SpecTopic TopicFacts Property PacketProps Packets TopicTree TreeFacts Storage SpecStorage StorageFacts
  Broker Auth Session SessionFacts Server SpecServer ServerFacts HandlerFacts HistoryFacts ProvenanceFacts Conc ConcFacts SpecConc SpecLives SpecSql Properties_Storage.

Definition goodf (f : bytes) : Prop := topic_filter f /\ ~ In 44 f.
Definition gs (s : session) : Prop := forall f st, aget bytes_eqb f (se_subs s) = Some st -> goodf f.
Definition gstore (m : mem_store) : Prop := forall id st, aget bytes_eqb id (ms_sessions m) = Some st -> Forall goodf (ss_subscriptions st).
Definition gop (o : sop) : Prop :=
  match o with
  | GetRetained f => topic_filter f
  | SaveSession c st => ss_client_id st = c /\ Forall goodf (ss_subscriptions st)
  | StoreRetained t (Some g) => mg_topic g = t
  | StoreInflight c p i => if_packet_id i = p
  | _ => True
  end.
Definition gres (r : sres) : Prop := match r with RSession (Some st) => Forall goodf (ss_subscriptions st) | _ => True end.
Lemma gstore_ok m o : gstore m -> gop o -> gstore (snd (mem_step m o)) /\ gres (fst (mem_step m o)).
Proof.
  intros H Ho. destruct o as [id st|id|id| |t [x|]|f| |id x|id|id|id pid x|id pid|id pid|id]; cbn [mem_step fst snd gres]; (split; [|try exact I]); try exact H.
  - intros id' st'. cbn. rewrite aget_aput by apply beqb_spec. destruct (bytes_eqb id' id); [|apply H]. intros E. injection E as <-. apply Ho.
  - destruct (mem_load_session id m) as [st|] eqn:E; [|exact I]. eapply H, E.
  - intros id' st'. cbn. rewrite aget_adel by apply beqb_spec. destruct (bytes_eqb id' id); [discriminate|apply H].
  - unfold mem_remove_inflight. destruct (aget bytes_eqb id (ms_inflight m)); exact H.
Qed.

Fixpoint gcode (k : code) : Prop :=
  match k with
  | Finish => True
  | Sess _ f => forall s n, gs s -> gs (fst (f s n)) /\ gcode (snd (f s n))
  | Sub _ k => forall p, gcode (k p)
  | Walk _ k => forall ps, gcode (k ps)
  | Store o k => gop o /\ forall r, gres r -> gcode (k r)
  | Find _ k => forall r, gcode (k r)
  | New _ s k => gs s /\ forall i, gcode (k i)
  | Emit _ k | Send _ _ k | Leave k | Forget _ k | Attach _ k | Detach k | Acquire _ k | Conc.Release _ k => gcode k
  end.
Section Codes.
  Context (cfg : config) (c : nat).
  Lemma gc_publish m k : gcode k -> gcode (publish (mg_topic m) m k).
  Proof.
    intros H. assert (Hr : gcode (route (mg_topic m) m k)) by (simpl; intros ps; induction ps; simpl; auto).
    unfold publish. destruct (mg_retain m); [destruct (mg_payload m) as [[|]|]|]; cbn [gcode gop]; auto.
  Qed.
  Lemma gs_same s s' : se_subs s' = se_subs s -> gs s -> gs s'.
  Proof. unfold gs. intros ->. auto. Qed.
  Lemma gc_end i : gcode (end_code c i).
  Proof.
    unfold end_code. cbn [gcode fst snd]. intros s n Hs. split; [exact Hs|]. destruct (se_will s) as [x|]; [|exact I].
    apply (gc_publish (will_message x)). unfold client_id_of. cbn [gcode fst snd gop]. auto.
  Qed.
  Lemma gc_respond r : gcode (respond c r).
  Proof. destruct r; exact I. Qed.
  Lemma gs_sub s f st : goodf f -> gs s -> gs (set_subs (aput bytes_eqb f st (se_subs s)) s).
  Proof.
    intros Hf H g x. cbn [set_subs se_subs]. rewrite aget_aput by apply beqb_spec. destruct (bytes_eqb g f) eqn:E; [|apply H].
    apply beqb_spec in E. subst g. intros _. exact Hf.
  Qed.
  Lemma gc_one i f k : goodf f -> gcode k -> gcode (subscribe_one i f k).
  Proof. intros Hf H. unfold subscribe_one. cbn [gcode fst snd gop]. intros n. split; [apply Hf|]. intros r _ s n' Hs. split; [|exact H]. apply gs_sub; assumption. Qed.
  Lemma gc_sub i fs : Forall (fun fo => utf8 (fst fo)) fs -> Forall (fun fo => ~ In 44 (fst fo)) fs -> forall k, (forall rs, gcode (k rs)) -> gcode (subscribe_all i fs k).
  Proof.
    induction fs as [|[f o] fs IH]; intros Hu Hc k H; cbn [subscribe_all]; [apply H|]. inversion Hu; inversion Hc; subst.
    destruct (validate_subscribe_filter f) eqn:E; [auto|]. apply gc_one; [split; [apply subscribe_filter_iff; assumption|assumption]|]. auto.
  Qed.
  Lemma gc_id i k : (forall id, gcode (k id)) -> gcode (client_id_of i k).
  Proof. intros H. unfold client_id_of. cbn [gcode fst snd]. auto. Qed.
  Lemma gs_filters s : gs s -> Forall goodf (subscription_filters s).
  Proof. intros H. apply Forall_forall. intros f Hf. apply (aget_some_key bytes_eqb beqb_spec) in Hf. destruct Hf as (st & Hf). eapply H, Hf. Qed.
  Lemma gc_save i k : gcode k -> gcode (save_subscriptions i k).
  Proof. intros H. apply gc_id. intros id. cbn [gcode fst snd gop]. intros s _ Hs. split; [exact Hs|]. split; [|auto]. split; [reflexivity|]. apply gs_filters, Hs. Qed.
  Lemma gc_remove i n k : gcode k -> gcode (remove_inflight i n k).
  Proof. intros H. apply gc_id. intros id. cbn [gcode gop]. auto. Qed.
  Lemma gc_simple i h after : (forall s, se_subs (snd (h s)) = se_subs s) -> (forall k, gcode k -> gcode (after k)) -> gcode (simple_code c i h after).
  Proof.
    intros Hs Ha. unfold simple_code. cbn [gcode]. intros s n H. specialize (Hs s). destruct (h s) as [[r| |] t]; cbn [fst snd] in *; (split; [eapply gs_same; eassumption|]);
      [apply Ha, gc_respond|apply gc_end|exact I].
  Qed.
  Lemma unsub_sub fs : forall subs f st, aget bytes_eqb f (snd (unsubscribe_loop fs subs)) = Some st -> aget bytes_eqb f subs = Some st.
  Proof.
    induction fs as [|g fs IH]; intros subs f st; cbn [unsubscribe_loop]; [auto|]. cbv zeta. specialize (IH (adel bytes_eqb g subs) f st).
    destruct (unsubscribe_loop fs (adel bytes_eqb g subs)) as [rs subs']. cbn [snd] in *. intros H. apply IH in H.
    rewrite aget_adel in H by apply beqb_spec. destruct (bytes_eqb f g); [discriminate|exact H].
  Qed.
  Lemma gc_packet i k : texts (EPacket c k) -> (forall p, k = Subscribe p -> Forall (fun fo => ~ In 44 (fst fo)) (sb_payload p)) -> gcode (packet_code cfg c i k).
  Proof.
    intros Ht Hc. destruct k as [k|k|p|a|a|a|a|p|k|p|k| | |d|a]; cbn [packet_code]; try apply gc_end.
    - unfold publish_code. destruct (validate_publish_topic _); [apply gc_end|].
      assert (Hgo : forall r, gcode (publish (pb_topic p) (message_of p) (match r with Some x => respond c x | None => end_code c i end))).
      { intros [x|]; apply (gc_publish (message_of p)); auto using gc_respond, gc_end. }
      destruct (pb_qos p); [|destruct (pb_packet_id p) as [n|] eqn:E|destruct (pb_packet_id p) as [n|] eqn:E|]; try first [exact (Hgo None)|exact (Hgo (Some None))|exact (Hgo (Some (Some _)))].
      intros s t Hs. cbn [fst snd]. split; [exact Hs|exact (Hgo (Some (Some _)))].
    - apply gc_simple; [reflexivity|auto using gc_remove].
    - apply gc_simple; [reflexivity|auto].
    - apply gc_simple; [reflexivity|auto].
    - apply gc_simple; [reflexivity|auto using gc_remove].
    - intros s n Hs. cbn [fst snd]. split; [exact Hs|]. apply gc_sub; [exact Ht|apply Hc; reflexivity|].
      intros rs. change (gcode (save_subscriptions i (Emit (Sent c (SubAck (Mk_suback_packet (c_protocol_version (se_connect s)) (sb_packet_id p) None rs))) Finish))).
      apply gc_save. exact I.
    - intros s n Hs. pose proof (unsub_sub (us_payload p) (se_subs s)) as Hu. destruct (unsubscribe_loop (us_payload p) (se_subs s)) as [rs subs]. cbn [fst snd] in *.
      split; [intros f st E; eapply Hs, Hu, E|]. apply gc_save. exact I.
    - apply gc_respond.
    - intros s n Hs. cbn [fst snd]. split; [exact Hs|]. apply gc_id. intros id. cbn [gcode gop]. split; [exact I|]. intros. apply gc_end.
    - apply gc_simple; [|auto]. intros s. unfold handle_auth. destruct (sv_manager cfg); [|reflexivity]. repeat case_match; reflexivity.
  Qed.
  Lemma gc_emits os k : gcode k -> gcode (emits os k).
  Proof. intros H. induction os; cbn; auto. Qed.
  Lemma gc_restore i subs wl infl : Forall goodf subs -> gcode (restore_code c i subs wl infl).
  Proof.
    intros Hf. unfold restore_code. cbv zeta. set (rest := emits _ _). assert (Hr : gcode rest) by (apply gc_emits; exact I).
    set (wills := match wl with Some x => _ | None => _ end).
    assert (Hw : gcode wills) by (unfold wills; destruct wl; [|exact Hr]; intros s n Hs; cbn [fst snd]; split; [exact Hs|exact Hr]).
    destruct subs as [|f fs]; [exact Hw|]. change (gcode (restore_all i (f :: fs) (Conc.Release (LSession i) wills))).
    induction Hf; cbn [restore_all]; [exact Hw|]. apply gc_one; assumption.
  Qed.
  Lemma gc_begin i u a r subs wl infl : Forall goodf subs -> gcode (begin_code c i u a r subs wl infl).
  Proof.
    intros Hf. unfold begin_code. cbn [gcode]. intros s n Hs. assert (Hb : gs (snd (begin u r s))) by (unfold begin; repeat case_match; exact Hs).
    destruct (begin u r s) as [ack t]. cbn [fst snd] in *. split; [exact Hb|]. destruct a; [|exact I]. cbn [gcode].
    apply gc_id. intros id. cbn [gcode fst snd gop]. split; [split; [reflexivity|exact Hf]|]. intros _ _ s1 _ H1. split; [exact H1|]. cbv zeta.
    destruct (se_will s1); cbn [gcode gop]; [split; [exact I|intros _ _]|]; apply gc_restore, Hf.
  Qed.
  Lemma gc_connect k u a : gcode (connect_code cfg c k u a).
  Proof.
    unfold connect_code. destruct (negb _); [exact I|]. cbv zeta.
    assert (Hg : forall r subs wl infl, Forall goodf subs -> gcode (enter_code k (fun i => begin_code c i u a r subs wl infl))).
    { intros r subs wl infl Hl. unfold enter_code. cbv zeta. cbn [gcode]. intros [i|]; [|split; [intros f st; discriminate|intros i; apply gc_begin, Hl]].
      intros s n Hs. cbn [fst snd]. split; [exact Hs|apply gc_begin, Hl]. }
    match goal with |- gcode (Acquire _ ?z) => change (gcode z) end.
    destruct (cf_clean_start _).
    - cbn [gcode gop]. split; [exact I|]. intros _ _. split; [exact I|]. intros _ _. apply Hg. constructor.
    - cbn [gcode]. intros [i|]; [apply Hg; constructor|]. cbn [gcode gop]. split; [exact I|]. intros r Hr. destruct r as [| [st|] | | | | |]; try (apply Hg; constructor).
      cbn [gcode gop]. split; [exact I|]. intros rw _. split; [exact I|]. intros ri _. apply Hg, Hr.
  Qed.
  Lemma gs_out f s n r s' : gs s -> process_outgoing f s (Mk_broker n mem_new) = Some (r, s') -> gs s'.
  Proof.
    intros Hs H. unfold process_outgoing in H. destruct (aget bytes_eqb f (se_subs s)) as [st|] eqn:Est; [|discriminate].
    destruct (stream_next _ st) as [[m st']|]; [|discriminate].
    assert (H1 : gs (set_subs (aput bytes_eqb f st' (se_subs s)) s)) by (apply gs_sub; [eapply Hs, Est|exact Hs]).
    destruct (mg_packet_id m) as [i|]; [destruct (mg_qos m)|]; inversion H; subst r s'; exact H1.
  Qed.
  Lemma gc_out i f : gcode (out_code c i f).
  Proof.
    unfold out_code. cbn [gcode]. intros s n Hs. destruct (process_outgoing f s _) as [[r s']|] eqn:E; [|cbn [fst snd gcode]; auto].
    pose proof (gs_out _ _ _ _ _ Hs E) as H1. destruct r as [p| |]; cbn [fst snd]; (split; [exact H1|]); try exact I.
    destruct (pb_packet_id p) as [pid|]; [|exact I]. destruct (pb_qos p); try exact I; apply gc_id; intros id; cbn [gcode gop]; (split; [reflexivity|]); intros; exact I.
  Qed.
  Lemma gc_handler sv e : event_conn e = c -> texts e -> (forall d p, e = EPacket d (Subscribe p) -> Forall (fun fo => ~ In 44 (fst fo)) (sb_payload p)) -> gcode (handler cfg sv e).
  Proof.
    intros E Ht Hc. destruct e as [d [[]|] u a|d k|d f|d|d|]; simpl in E; subst; destruct sv as [i|]; try exact I; cbn [handler].
    - apply gc_connect.
    - apply gc_packet; [exact Ht|]. intros p ->. eapply Hc. reflexivity.
    - apply gc_out.
    - apply gc_end.
  Qed.
End Codes.

(** ** Runs *)
Definition gworld (w : world) : Prop := (forall i s, nth_error (w_heap w) i = Some s -> gs s) /\ gstore (w_store w).
Lemma gcode_next c k w o k1 : gcode k -> gworld w -> next k w = Some (o, k1) ->
  gworld (apply c o w) /\ gcode k1 /\
  match o with OStore o r => gop o /\ mem_step (w_store w) o = (r, w_store (apply c (OStore o r) w)) | _ => w_store (apply c o w) = w_store w end.
Proof.
  intros H [Hh Hs] E. assert (Hw : gworld w) by (split; assumption).
  destruct k; cbn [Conc.next gcode] in *; try discriminate; try (injection E as <- <-; cbn [apply]; (split; [first [exact Hw|split; assumption]|split; [first [exact H|apply H]|reflexivity]]); fail).
  - destruct (nth_error (w_heap w) i) as [s|] eqn:Ei; [|discriminate]. destruct (H s (bk_tree (w_broker w)) (Hh _ _ Ei)) as [H1 H2]. destruct (f s _) as [s' k']. injection E as <- <-.
    cbn [fst snd apply] in *. split; [|split; [exact H2|reflexivity]]. split; [|exact Hs]. intros j s1. unfold put_session, set_heap. cbn [w_heap]. intros Hj. destruct (Nat.eq_dec j i) as [->|Hd].
    + rewrite list_set_same in Hj by (apply nth_error_Some; congruence). injection Hj as <-. exact H1.
    + rewrite list_set_other in Hj by auto. eapply Hh, Hj.
  - injection E as <- <-. destruct H as [Ho Hk]. destruct (gstore_ok _ _ Hs Ho) as [H1 H2]. split; [split; [exact Hh|exact H1]|]. split; [apply Hk, H2|]. split; [exact Ho|].
    cbn [apply]. destruct (mem_step (w_store w) _) as [r st]. reflexivity.
  - injection E as <- <-. cbn [apply]. destruct H as [Hn Hk]. split; [|split; [apply Hk|reflexivity]]. split; [|exact Hs]. intros j s1. unfold set_manager, set_heap. cbn [w_heap]. intros Hj.
    destruct (Nat.lt_ge_cases j (length (w_heap w))) as [Hl|Hl]; [rewrite nth_error_app1 in Hj by exact Hl; eapply Hh, Hj|].
    rewrite nth_error_app2 in Hj by exact Hl. destruct (j - length (w_heap w))%nat as [|q]; simpl in Hj; [injection Hj as <-; exact Hn|destruct q; discriminate].
Qed.
Definition gconf (x : conf) : Prop := gworld (cn_world x) /\ forall c k, aget Nat.eqb c (cn_tasks x) = Some k -> gcode k.
Lemma gconf_runs cfg x tr y : mruns cfg x tr y -> (forall e, In (IStart e) tr -> texts e) -> comma_free tr -> gconf x ->
  gconf y /\ Forall gop (map fst (store_calls tr))
  /\ store_run mem_step (map fst (store_calls tr)) (w_store (cn_world x)) = (map snd (store_calls tr), w_store (cn_world y)).
Proof.
  induction 1 as [x|x m x1 i tr x2 Hm Hr IH]; intros Ht Hc [Hw Hk]; [split; [split; assumption|]; split; [constructor|reflexivity]|].
  assert (Hstep : gconf x1 /\ match i with
      IStep _ (OStore o r) => gop o /\ mem_step (w_store (cn_world x)) o = (r, w_store (cn_world x1)) | _ => w_store (cn_world x1) = w_store (cn_world x) end).
  { apply mstep_inv in Hm.
    destruct Hm as [(e & -> & -> & He & Ha & ->)|[(c & -> & -> & Ha & ->)|(c & k & o & k1 & -> & -> & Ha & Hx & Hy & ->)]]; cbn [cn_world].
    - split; [|reflexivity]. split; [exact Hw|]. cbn [cn_tasks]. intros c k. rewrite (aget_aput Nat.eqb Nat.eqb_eq). destruct (Nat.eqb c _); [|apply Hk]. intros E. injection E as <-.
      eapply gc_handler; [reflexivity|apply Ht; left; reflexivity|]. intros d p ->. apply (Hc d). left. reflexivity.
    - split; [|reflexivity]. split; [exact Hw|]. cbn [cn_tasks]. intros d k. rewrite (aget_adel Nat.eqb Nat.eqb_eq). destruct (Nat.eqb d c); [discriminate|apply Hk].
    - destruct (gcode_next c _ _ _ _ (Hk _ _ Ha) Hw Hx) as (H1 & H2 & H3). split; [|destruct o; exact H3]. split; [exact H1|]. cbn [cn_tasks]. intros d k2.
      rewrite (aget_aput Nat.eqb Nat.eqb_eq). destruct (Nat.eqb d c); [|apply Hk]. intros E. injection E as <-. exact H2. }
  destruct Hstep as [Hg Hi]. destruct IH as (I1 & I2 & I3); [intros e He; apply Ht; right; exact He|intros c p Hp; apply (Hc c); right; exact Hp|exact Hg|].
  split; [exact I1|]. unfold store_calls in *. cbn [flat_map].
  destruct i as [e|c o|c]; try (rewrite <- Hi; split; assumption). destruct o; try (rewrite <- Hi; split; assumption).
  destruct Hi as [Ho Hi]. cbn [app map fst snd store_run]. rewrite Hi, I3. split; [constructor; assumption|reflexivity].
Qed.
Lemma gconf_on st : gstore st -> gconf (conf_on st).
Proof. intros H. split; [|discriminate]. split; [intros i s E; destruct i; discriminate|exact H]. Qed.
Lemma store_run_app {S} (step : S -> sop -> sres * S) a : forall b s, store_run step (a ++ b) s =
  (fst (store_run step a s) ++ fst (store_run step b (snd (store_run step a s))), snd (store_run step b (snd (store_run step a s)))).
Proof.
  induction a as [|o a IH]; intros b s; cbn [app store_run]; [cbn [fst snd app]; apply surjective_pairing|]. destruct (step s o) as [r s1]. rewrite IH.
  destruct (store_run step a s1) as [rs s2]. reflexivity.
Qed.
Lemma all_texts tr : (forall c, Forall texts (events_of c tr)) -> forall e, In (IStart e) tr -> texts e.
Proof.
  intros H e He. destruct e as [c f u a|c k|c f|c|c|]; try exact I. specialize (H c). rewrite Forall_forall in H. apply H. unfold events_of. apply in_flat_map.
  exists (IStart (EPacket c k)). split; [exact He|]. cbn. rewrite Nat.eqb_refl. left. reflexivity.
Qed.
Lemma lives_calls cfg trs st : lives cfg trs st -> Forall comma_free trs ->
  gstore st /\ Forall gop (map fst (flat_map store_calls trs))
  /\ store_run mem_step (map fst (flat_map store_calls trs)) mem_new = (map snd (flat_map store_calls trs), st).
Proof.
  induction 1 as [|trs st tr x Hl IH Hr Ht]; intros Hc; [repeat split; [intros id s; discriminate|constructor]|].
  apply Forall_app in Hc. destruct Hc as [Hc1 Hc2]. inversion Hc2; subst. destruct (IH Hc1) as (I1 & I2 & I3).
  destruct (gconf_runs _ _ _ _ Hr (all_texts _ Ht) ltac:(assumption) (gconf_on _ I1)) as ([[_ G1] _] & G2 & G3).
  split; [exact G1|]. rewrite flat_map_app. cbn [flat_map]. rewrite app_nil_r, !map_app. split; [apply Forall_app; split; assumption|].
  rewrite store_run_app, I3. cbn [fst snd]. cbn [conf_on cn_world w_store w_broker bk_store] in G3. change (w_store (Mk_world [] [] (Mk_broker new_node st) [])) with st in G3. rewrite G3. reflexivity.
Qed.

(** ** The memory store without identifiers *)
Definition mapv {A B} (g : A -> B) (l : list (bytes * A)) : list (bytes * B) := map (fun x => (fst x, g (snd x))) l.
Lemma mapv_aput {A B} (g : A -> B) t v l : mapv g (aput bytes_eqb t v l) = aput bytes_eqb t (g v) (mapv g l).
Proof. unfold mapv. induction l as [|[t' v'] l IH]; cbn; [reflexivity|]. destruct (bytes_eqb t t'); cbn; [reflexivity|]. f_equal. exact IH. Qed.
Lemma mapv_adel {A B} (g : A -> B) t l : mapv g (adel bytes_eqb t l) = adel bytes_eqb t (mapv g l).
Proof. unfold mapv, adel. induction l as [|[t' v'] l IH]; cbn; [reflexivity|]. destruct (bytes_eqb t t'); cbn; [exact IH|f_equal; exact IH]. Qed.
Definition erase (m : mem_store) : mem_store := Mk_mem_store (ms_sessions m) (mapv without_id (ms_retained m)) (ms_wills m) (ms_inflight m).
Definition erase_res (r : sres) : sres := match r with RMessages ms => RMessages (map without_id ms) | _ => r end.
Lemma erase_step m o : gop o -> mem_step (erase m) (as_rows o) = (erase_res (fst (mem_step m o)), erase (snd (mem_step m o))).
Proof.
  intros H. destruct o as [id st|id|id| |t [x|]|f| |id x|id|id|id pid x|id pid|id pid|id]; cbn [mem_step as_rows fst snd erase_res]; try reflexivity.
  - destruct H as [<- _]. destruct st. reflexivity.
  - cbn in H. subst t. unfold mem_store_retained, erase. cbn [ms_sessions ms_retained ms_wills ms_inflight]. rewrite mapv_aput. reflexivity.
  - unfold mem_store_retained, erase. cbn [ms_sessions ms_retained ms_wills ms_inflight]. rewrite mapv_adel. reflexivity.
  - f_equal. f_equal. unfold mem_get_retained, erase, mapv. cbn [ms_retained]. induction (ms_retained m) as [|[t x] l IH]; cbn; [reflexivity|].
    destruct (topic_matches_filter t (levels f)); cbn; [f_equal|]; exact IH.
  - cbn in H. subst pid. destruct x. reflexivity.
  - unfold mem_remove_inflight, erase. cbn. destruct (aget bytes_eqb id (ms_inflight m)); reflexivity.
Qed.
Lemma erase_run os : forall m, Forall gop os -> fst (store_run mem_step (map as_rows os) (erase m)) = map erase_res (fst (store_run mem_step os m)).
Proof.
  induction os as [|o os IH]; intros m H; [reflexivity|]. inversion H; subst. cbn [map store_run]. rewrite erase_step by assumption.
  specialize (IH (snd (mem_step m o)) ltac:(assumption)). destruct (mem_step m o) as [r m1]. cbn [fst snd] in *.
  destruct (store_run mem_step (map as_rows os) (erase m1)) as [rs m2]. destruct (store_run mem_step os m1) as [rs' m2']. cbn [fst map] in *. f_equal. exact IH.
Qed.
Lemma sql_alike os : Forall gop os -> Forall2 alike (fst (store_run sql_step os sql_new)) (fst (store_run mem_step os mem_new)).
Proof.
  intros H. assert (Hv : Forall valid_lookup os /\ Forall no_commas os).
  { split; (eapply Forall_impl; [|exact H]); intros o Ho; destruct o as [id st|id|id| |t [x|]|f| |id x|id|id|id pid x|id pid|id pid|id]; try exact I; try exact Ho.
    destruct Ho as [_ Ho]. split; [intros E; rewrite E in Ho; inversion Ho as [|? ? [Hf _] _]; subst|].
    - apply subscribe_filter_iff in Hf; [|apply topic_filter_utf8, Hf]. discriminate Hf.
    - eapply Forall_impl; [|exact Ho]. intros f [_ Hf]. exact Hf. }
  pose proof (C52_sqlite_rows_partial os (proj1 Hv) (proj2 Hv)) as E. change mem_new with (erase mem_new) in E. rewrite erase_run in E by exact H.
  revert E. generalize (fst (store_run sql_step os sql_new)), (fst (store_run mem_step os mem_new)). intros a b. revert a.
  induction b as [|r b IH]; intros a E; inversion E; subst; constructor; auto.
Qed.
