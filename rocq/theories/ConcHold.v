(** What stays in the store for a client with an identifier of its own, whatever the other handlers do. *)
From Verif Require Import Base Utf8 Codec SpecCodec Tac Maps CodecFacts Topic SpecTopic TopicFacts Property PacketProps Packets
  TopicTree TreeFacts Storage SpecStorage StorageFacts Broker SpecBroker BrokerFacts Auth Session Server SpecServer SessionFacts ServerFacts HandlerFacts
  Conc SpecConc ConcFacts ConcLocks ConcRoute ConcOwn ConcDeliver ConcProv ConcWill SpecDurable ConcStore.

(** ** The entries of one client *)
(** The stored session of [id] and its message in flight with identifier [pid]. *)
Definition view_t := (option session_state * option inflight)%type.
Definition view (id : bytes) (pid : N) (m : mem_store) : view_t := (mem_load_session id m, mem_get_inflight id pid m).
Definition upd (id : bytes) (pid : N) (o : sop) (v : view_t) : view_t :=
  match o with
  | SaveSession id' x => if bytes_eqb id' id then (Some x, snd v) else v
  | DeleteSession id' => if bytes_eqb id' id then (None, snd v) else v
  | StoreInflight id' n x => if bytes_eqb id' id && (n =? pid) then (fst v, Some x) else v
  | RemoveInflight id' n => if bytes_eqb id' id && (n =? pid) then (fst v, None) else v
  | _ => v
  end.
Lemma bytes_eqb_neq (a b : bytes) : a <> b -> bytes_eqb a b = false.
Proof. intros H. destruct (bytes_eqb a b) eqn:E; [|reflexivity]. apply beqb_spec in E. contradiction. Qed.
Lemma bytes_dec (a b : bytes) : {a = b} + {a <> b}.
Proof. apply (list_eq_dec N.eq_dec). Qed.
Lemma view_step id pid m o : view id pid (snd (mem_step m o)) = upd id pid o (view id pid m).
Proof.
  unfold view. destruct o as [id' x|id'|id'| |t x|f| |id' x|id'|id'|id' n x|id' n|id' n|id']; try reflexivity; cbn [mem_step snd upd fst];
    unfold mem_load_session, mem_get_inflight, mem_save_session, mem_delete_session, mem_store_inflight, mem_remove_inflight, inflight_of; cbn [ms_sessions ms_inflight].
  all: try (destruct (bytes_dec id' id) as [->|E]; [rewrite bytes_eqb_refl|rewrite (bytes_eqb_neq _ _ E)]; cbn [andb]).
  - rewrite (aget_put_same _ beqb_spec). reflexivity.
  - rewrite (aget_put_other _ beqb_spec) by auto. reflexivity.
  - rewrite (aget_del_same _ beqb_spec). reflexivity.
  - rewrite (aget_del_other _ beqb_spec) by auto. reflexivity.
  - rewrite (aget_put_same _ beqb_spec). destruct (N.eqb_spec n pid) as [->|En].
    + rewrite (aget_put_same _ neqb_spec). reflexivity.
    + rewrite (aget_put_other _ neqb_spec) by auto. destruct (aget bytes_eqb id (ms_inflight m)); reflexivity.
  - rewrite (aget_put_other _ beqb_spec) by auto. reflexivity.
  - destruct (aget bytes_eqb id (ms_inflight m)) as [l|] eqn:El; cbn [ms_sessions ms_inflight].
    + rewrite (aget_put_same _ beqb_spec). destruct (N.eqb_spec n pid) as [->|En].
      * rewrite (aget_del_same _ neqb_spec). reflexivity.
      * rewrite (aget_del_other _ neqb_spec) by auto. reflexivity.
    + rewrite El. destruct (n =? pid); reflexivity.
  - destruct (aget bytes_eqb id' (ms_inflight m)) as [l|]; cbn [ms_sessions ms_inflight]; [|reflexivity].
    rewrite (aget_put_other _ beqb_spec) by auto. reflexivity.
Qed.
Lemma upd_other id pid o v : key o <> Some id -> upd id pid o v = v.
Proof. intros H. destruct o; cbn [upd key] in *; try reflexivity; rewrite bytes_eqb_neq by congruence; reflexivity. Qed.

(** ** A task that is alone with its session and its entries *)
Section Local.
  Context (i : nat) (id : bytes) (pid : N) (Ok : sop -> Prop) (A : code -> session -> view_t -> Prop).
  (** [A] holds of what is left to do, the session and the entries whenever the task has come to that point, if it
      makes the storage calls [Ok] only. *)
  Fixpoint local (k : code) (s : session) (v : view_t) : Prop :=
    A k s v /\
    match k with
    | Finish => True
    | Emit _ k | Send _ _ k | Leave k | Detach k | Acquire _ k | Release _ k => local k s v
    | Sess j g => j = i /\ forall n, se_client_id (fst (g s n)) = id -> local (snd (g s n)) (fst (g s n)) v
    | Sub _ k => forall n, local (k n) s v
    | Walk _ k => forall ps, local (k ps) s v
    | Store o k => Ok o -> forall r, local (k r) s (upd id pid o v)
    | Attach j k => j = i /\ local k s v
    | Find _ _ | Forget _ _ | New _ _ _ => False
    end.
  Lemma local_at k s v : local k s v -> A k s v.
  Proof. destruct k; intros H; apply H. Qed.
  Lemma local_next c k s w o k1 : local k s (view id pid (w_store w)) -> next k w = Some (o, k1) -> nth_error (w_heap w) i = Some s ->
    (forall p r, o = OStore p r -> Ok p) -> (forall s', nth_error (w_heap (apply c o w)) i = Some s' -> se_client_id s' = id) ->
    (forall j, o = OAttach j -> j = i) /\
    exists s', nth_error (w_heap (apply c o w)) i = Some s' /\ local k1 s' (view id pid (w_store (apply c o w))).
  Proof.
    destruct k; cbn [local Conc.next]; intros [_ H] E Hs Hok Hid; try discriminate; try contradiction;
      try (injection E as <- <-; split; [discriminate|]; exists s; split; [exact Hs|apply H]; fail).
    - destruct H as [-> H]. rewrite Hs in E. specialize (H (bk_tree (w_broker w))). destruct (f s (bk_tree (w_broker w))) as [s' k'] eqn:Ef.
      injection E as <- <-. split; [discriminate|]. exists s'. assert (Hh : nth_error (w_heap (apply c (OSess i s s') w)) i = Some s') by (eapply heap_sess; exact Hs).
      split; [exact Hh|]. apply H. cbn [fst]. apply Hid, Hh.
    - injection E as <- <-. split; [discriminate|]. exists s. split; [exact Hs|]. change (w_store (apply c (OStore o0 (fst (mem_step (w_store w) o0))) w)) with (snd (mem_step (w_store w) o0)).
      rewrite view_step. apply H. eapply Hok. reflexivity.
    - injection E as <- <-. destruct H as [-> H]. split; [congruence|]. exists s. split; [exact Hs|exact H].
  Qed.
  Lemma local_sends ps m k s v : (forall k, A k s v) -> local k s v -> local (sends ps m k) s v.
  Proof. intros HA H. induction ps; cbn [sends local]; auto. Qed.
  Lemma local_publish t m k s v : (forall k, A k s v) -> local k s v -> local (publish t m k) s v.
  Proof.
    intros HA H. unfold publish, route. destruct (mg_retain m); [destruct (mg_payload m) as [[|]|]|]; cbn [local upd]; repeat (split; [apply HA|]); intros; try (split; [apply HA|]); intros;
      apply local_sends; auto; cbn [local]; auto.
  Qed.
  Lemma local_emits os k s v : (forall k, A k s v) -> local k s v -> local (emits os k) s v.
  Proof. intros HA H. induction os; cbn [emits local]; auto. Qed.
  Lemma local_sub_one f k s v : (forall s', (forall g, subscribed s' g <-> g = f \/ subscribed s g) -> local k s' v) ->
    (forall n, A (Sub f n) s v) -> (forall o n, A (Store o n) s v) -> (forall n, A (Sess i n) s v) -> local (subscribe_one i f k) s v.
  Proof.
    intros Hk A1 A2 A3. unfold subscribe_one. cbn [local upd]. split; [apply A1|]. intros n. split; [apply A2|]. intros _ r. split; [apply A3|]. split; [reflexivity|].
    intros _ _. cbn [fst snd]. apply Hk. intros g. unfold subscribed. cbn [set_subs se_subs]. apply (akeys_aput _ beqb_spec).
  Qed.
End Local.

(** ** Handlers that keep subscriptions and a message in flight *)
Section Keep.
  Context (i : nat) (id : bytes) (pid : N) (F : bytes -> Prop) (P : Prop) (x : inflight).
  (** The client is subscribed to the filters [F], they are stored, and (if [P]) so is [x]. *)
  Definition kept (s : session) (v : view_t) : Prop :=
    (forall f, F f -> subscribed s f) /\ (exists y, fst v = Some y /\ forall f, F f -> In f (ss_subscriptions y)) /\ (P -> snd v = Some x).
  Definition spare (o : sop) : Prop := P -> forall y, o <> StoreInflight id pid y.
  Notation L := (local i id pid spare (fun _ => kept)).
  Lemma kept_subs s s' v : (forall f, subscribed s f -> subscribed s' f) -> kept s v -> kept s' v.
  Proof. intros H (H1 & H2). split; auto. Qed.
  Lemma kept_saved s v b : kept s v -> kept s (upd id pid (SaveSession id (Mk_session_state id (subscription_filters s) b)) v).
  Proof.
    intros (H1 & H2 & H3). cbn [upd]. rewrite bytes_eqb_refl. split; [exact H1|]. split; [|exact H3]. eexists. split; [reflexivity|]. exact H1.
  Qed.
  Lemma local_id k s v : kept s v -> (se_client_id s = id -> L (k id) s v) -> L (client_id_of i k) s v.
  Proof. intros H Hk. unfold client_id_of. cbn [local fst snd]. split; [exact H|]. split; [reflexivity|]. intros _ E. rewrite E. auto. Qed.
  Lemma local_end c s v : kept s v -> L (end_code c i) s v.
  Proof.
    intros H. assert (H' : kept (set_will None s) v) by (eapply kept_subs; [|exact H]; auto).
    unfold end_code. cbn [local fst snd]. split; [exact H|]. split; [reflexivity|]. intros _ _. destruct (se_will s); [|cbn [local]; auto].
    apply local_publish; [auto|]. apply local_id; [exact H'|]. intros _. apply local_id; [exact H'|]. intros _. cbn [local upd]. auto 10.
  Qed.
  Lemma local_respond c r s v : kept s v -> L (respond c r) s v.
  Proof. intros H. destruct r; cbn [respond local]; auto. Qed.
  Lemma local_save k s v : kept s v -> (forall v', kept s v' -> L k s v') -> L (save_subscriptions i k) s v.
  Proof.
    intros H Hk. unfold save_subscriptions. apply local_id; [exact H|]. intros Hs. cbn [local fst snd]. split; [exact H|]. split; [reflexivity|]. intros _ _.
    cbn [local]. split; [exact H|]. intros _ _. apply Hk, kept_saved, H.
  Qed.
  Lemma local_subscribe_all fs : forall k s v, kept s v -> (forall rs s', kept s' v -> L (k rs) s' v) -> L (subscribe_all i fs k) s v.
  Proof.
    induction fs as [|[f o] fs IH]; intros k s v H Hk; cbn [subscribe_all]; auto.
    destruct (validate_subscribe_filter f); [apply IH; auto|]. apply local_sub_one; auto. intros s' Hs'. apply IH; auto.
    eapply kept_subs; [|exact H]. intros g Hg. apply Hs'. auto.
  Qed.
  Lemma local_simple c h after s v : (forall s, se_subs (snd (h s)) = se_subs s) -> kept s v ->
    (forall r s v, kept s v -> L (after (respond c r)) s v) -> L (simple_code c i h after) s v.
  Proof.
    intros Hh H Ha. unfold simple_code. cbn [local]. split; [exact H|]. split; [reflexivity|]. intros n _. specialize (Hh s).
    destruct (h s) as [r s'] eqn:E. cbn [fst snd] in *. assert (H' : kept s' v) by (eapply kept_subs; [|exact H]; unfold subscribed; rewrite Hh; auto).
    destruct r; [apply Ha; exact H'|apply local_end; exact H'|cbn [local]; auto].
  Qed.
  Lemma local_remove n k s v : kept s v -> (P -> n <> pid) -> (forall v', kept s v' -> L k s v') -> L (remove_inflight i n k) s v.
  Proof.
    intros H Hn Hk. unfold remove_inflight. apply local_id; [exact H|]. intros _. cbn [local]. split; [exact H|]. intros _ _. apply Hk. cbn [upd].
    rewrite bytes_eqb_refl. cbn [andb]. destruct (N.eqb_spec n pid) as [E|_]; [|exact H]. destruct H as (H1 & H2 & H3). split; [exact H1|]. split; [exact H2|].
    intros HP. destruct (Hn HP E).
  Qed.
  (** The client does not ask for [F] to be removed and does not acknowledge the message. *)
  Definition spares (e : event) : Prop :=
    match e with
    | EPacket _ (Unsubscribe p) => forall f, F f -> ~ In f (us_payload p)
    | EPacket _ (PubAck a) | EPacket _ (PubComp a) => P -> ak_packet_id a <> pid
    | EFirst _ _ _ _ => False
    | _ => True
    end.
  Lemma auth_subs cfg k s : se_subs (snd (handle_auth (sv_manager cfg) k s)) = se_subs s.
  Proof.
    destruct (handle_auth (sv_manager cfg) k s) as [r s'] eqn:E. unfold handle_auth in E. cbn [snd].
    destruct (sv_manager cfg) as [am|]; [|inv E; auto]. destruct (au_reason k); try (inv E; auto; fail).
    - destruct (se_auth s); [|inv E; auto]. destruct (aup_auth_data _); [|inv E; auto].
      destruct (continue_auth _ _ _); inv E; auto.
    - destruct (aup_auth_method _); [|inv E; auto]. destruct (supports_method _ _); simpl in E; [|inv E; auto].
      destruct (start_auth _ _ _); inv E; auto.
  Qed.
  Lemma local_packet cfg c k s v : spares (EPacket c k) -> kept s v -> L (packet_code cfg c i k) s v.
  Proof.
    intros Hsp H. pose proof (local_end c s v H) as He.
    destruct k as [k|k|k|k|k|k|k|k|k|k|k| | |d|k]; cbn [packet_code]; try exact He.
    - unfold publish_code. destruct (validate_publish_topic _); [exact He|].
      destruct (pb_qos k); destruct (pb_packet_id k); try (apply local_publish; auto using local_respond; fail).
      cbn [local fst snd]. split; [exact H|]. split; [reflexivity|]. intros _ _.
      assert (H' : kept (set_unacked (aput N.eqb n k (se_unacked s)) s) v) by (eapply kept_subs; [|exact H]; auto).
      apply local_publish; auto using local_respond.
    - apply local_simple; auto. intros r s' v' H'. apply local_remove; auto using local_respond.
    - apply local_simple; auto using local_respond.
    - apply local_simple; auto using local_respond.
    - apply local_simple; auto. intros r s' v' H'. apply local_remove; auto using local_respond.
    - unfold subscribe_code. cbn [local fst snd]. split; [exact H|]. split; [exact H|]. split; [reflexivity|]. intros _ _.
      apply local_subscribe_all; [exact H|]. intros rs s' H'. cbn [local]. split; [exact H'|]. apply local_save; [exact H'|]. intros v' Hv. cbn [local]. auto.
    - unfold unsubscribe_code. cbn [local]. split; [exact H|]. split; [reflexivity|]. intros n _. destruct (unsubscribe_loop _ _) as [rs subs] eqn:E. cbn [fst snd].
      destruct (unsubscribe_loop_spec _ _ _ _ E) as (_ & _ & _ & Hk & _).
      assert (H' : kept (set_subs subs s) v).
      { destruct H as (H1 & H2). split; [|exact H2]. intros f Hf. apply subscribed_aget. cbn [set_subs se_subs]. rewrite Hk by (apply Hsp; exact Hf). apply subscribed_aget, H1, Hf. }
      apply local_save; [exact H'|]. intros v' Hv. cbn [local]. auto.
    - apply local_respond, H.
    - unfold disconnect_code. cbn [local fst snd]. split; [exact H|]. split; [reflexivity|]. intros _ _.
      assert (H' : kept (set_will None s) v) by (eapply kept_subs; [|exact H]; auto).
      apply local_id; [exact H'|]. intros _. cbn [local upd]. split; [exact H'|]. intros _ _. apply local_end, H'.
    - apply local_simple; auto using local_respond. intros. apply auth_subs.
  Qed.
  Lemma local_out c f s v : kept s v -> L (out_code c i f) s v.
  Proof.
    intros H. unfold out_code. cbn [local]. split; [exact H|]. split; [reflexivity|]. intros n _.
    destruct (process_outgoing f s _) as [[r s']|] eqn:E; [|cbn [fst snd local]; auto].
    assert (H' : kept s' v) by (eapply kept_subs; [|exact H]; intros g; apply (process_outgoing_keys _ _ _ _ _ E)).
    destruct r as [p|e|]; cbn [fst snd]; [|cbn [local]; auto|cbn [local]; auto].
    assert (Hid : forall m y, L (client_id_of i (fun id0 => Store (StoreInflight id0 m y) (fun _ => Emit (Sent c (Publish p)) Finish))) s' v).
    { intros m y. apply local_id; [exact H'|]. intros _. cbn [local]. split; [exact H'|]. intros Hsp _.
      assert (Hv : kept s' (upd id pid (StoreInflight id m y) v)).
      { cbn [upd]. rewrite bytes_eqb_refl. cbn [andb]. destruct (N.eqb_spec m pid) as [->|_]; [|exact H'].
        destruct H' as (H1 & H2 & H3). split; [exact H1|]. split; [exact H2|]. intros HP. destruct (Hsp HP y eq_refl). }
      cbn [local]. auto. }
    destruct (pb_packet_id p); [destruct (pb_qos p)|]; try apply Hid; cbn [local]; auto.
  Qed.
  Lemma local_handler cfg e s v : spares e -> kept s v -> L (handler cfg (Some i) e) s v.
  Proof.
    intros Hsp H. destruct e as [c first u a|c k|c f|c|c|]; cbn [handler local]; auto.
    - apply local_packet; auto.
    - apply local_out; auto.
    - apply local_end; auto.
  Qed.
End Keep.

(** ** The SUBACK, the PUBLISH and the end of the CONNECT *)
Section Moments.
  Context (i : nat) (id : bytes) (pid : N).
  Notation ok := (fun _ : sop => True).
  (** When the SUBACK is written, the filters it grants are stored. *)
  Definition at_suback (p : subscribe_packet) (k : code) (s : session) (v : view_t) : Prop :=
    match k with
    | Emit (Sent _ (SubAck a)) k' => k' = Finish /\
        forall m f o, nth_error (sb_payload p) m = Some (f, o) -> nth_error (sa_payload a) m <> Some TopicFilterInvalid -> nth_error (sa_payload a) m <> None ->
          subscribed s f /\ exists y, fst v = Some y /\ In f (ss_subscriptions y)
    | _ => True
    end.
  Definition nemit (k : code) : Prop := match k with Emit _ _ => False | _ => True end.
  Lemma suback_all (A : code -> session -> view_t -> Prop) fs : (forall k s v, nemit k -> A k s v) -> forall k s v,
    (forall rs s', (forall g, subscribed s g -> subscribed s' g) ->
       (forall m f o, nth_error fs m = Some (f, o) -> nth_error rs m <> Some TopicFilterInvalid -> nth_error rs m <> None -> subscribed s' f) -> local i id pid ok A (k rs) s' v) ->
    local i id pid ok A (subscribe_all i fs k) s v.
  Proof.
    intros HA. induction fs as [|[f o] fs IH]; intros k s v Hk; cbn [subscribe_all].
    - apply Hk; auto. intros [|m] f o H; discriminate.
    - destruct (validate_subscribe_filter f).
      + apply IH. intros rs s' H1 H2. apply Hk; auto. intros [|m] g q Hg Hr Hr2; cbn in Hg, Hr, Hr2; [congruence|eauto].
      + apply local_sub_one; try (intros; apply HA; exact I). intros s1 Hs1. apply IH. intros rs s' H1 H2. apply Hk.
        * intros g Hg. apply H1, Hs1. auto.
        * intros [|m] g q Hg Hr Hr2; cbn in Hg, Hr, Hr2; [|eauto]. injection Hg as <- <-. apply H1, Hs1. auto.
  Qed.
  Lemma suback_code c p s v : local i id pid ok (at_suback p) (subscribe_code c i p) s v.
  Proof.
    unfold subscribe_code. cbn [local fst snd at_suback]. split; [exact I|]. split; [exact I|]. split; [reflexivity|]. intros _ _.
    apply suback_all; [intros k s0 v0; destruct k; cbn; intros H; auto; contradiction|]. intros rs s' _ H2. unfold save_subscriptions, client_id_of. cbn [local fst snd at_suback upd].
    split; [exact I|]. split; [exact I|]. split; [reflexivity|]. intros _ E. split; [exact I|]. split; [reflexivity|]. intros _ _. split; [exact I|]. intros _ _.
    rewrite E, bytes_eqb_refl. split; [|auto]. split; [reflexivity|]. cbn [sa_payload fst]. intros m f o Hf Hr Hr2. specialize (H2 _ _ _ Hf Hr Hr2). split; [exact H2|].
    eexists. split; [reflexivity|]. exact H2.
  Qed.
  (** When the PUBLISH is written, the message is stored. *)
  Definition at_publish (k : code) (s : session) (v : view_t) : Prop :=
    match k with
    | Emit (Sent _ (Publish q)) k' => k' = Finish /\
        (pb_packet_id q = Some pid -> pb_qos q = AtLeastOnce \/ pb_qos q = ExactlyOnce ->
           snd v = Some (Mk_inflight pid (pb_topic q) (pb_payload q) (pb_qos q) (pb_dup q)))
    | _ => True
    end.
  Lemma publish_out c f s v : local i id pid ok at_publish (out_code c i f) s v.
  Proof.
    unfold out_code. cbn [local]. split; [exact I|]. split; [reflexivity|]. intros n _.
    destruct (process_outgoing f s _) as [[[p|e|] s']|] eqn:E; cbn [fst snd local at_publish]; auto.
    destruct (pb_packet_id p) as [m|] eqn:Em; [destruct (pb_qos p) eqn:Eq|]; unfold client_id_of; cbn [local fst snd at_publish upd];
      try (split; [|auto]; split; [reflexivity|]; intros H1 H2; rewrite ?Em, ?Eq in *; destruct H2; discriminate).
    all: split; [exact I|]; split; [reflexivity|]; intros _ Hid; split; [exact I|]; intros _ _; rewrite Hid, bytes_eqb_refl; cbn [andb]; split; [|auto]; split; [reflexivity|];
      rewrite Em, Eq; intros [= ->] _; rewrite N.eqb_refl; reflexivity.
  Qed.
  (** When the connection is served, its session is stored. *)
  Definition at_attach (k : code) (s : session) (v : view_t) : Prop :=
    match k with Attach _ k' => k' = Finish /\ fst v <> None | _ => True end.
  Lemma at_restore c subs wl infl s v : fst v <> None -> local i id pid ok at_attach (restore_code c i subs wl infl) s v.
  Proof.
    intros Hv. unfold restore_code. cbv zeta.
    assert (H : forall s, local i id pid ok at_attach (emits (map (fun x => Sent c (Publish (retry_publish x))) infl) (Attach i Finish)) s v).
    { intros s0. induction infl; cbn [map emits local at_attach]; auto. }
    assert (Hw : forall s, local i id pid ok at_attach (match wl with Some x => Sess i (fun s _ => (set_will (Some x) s, emits (map (fun x => Sent c (Publish (retry_publish x))) infl) (Attach i Finish)))
        | None => emits (map (fun x => Sent c (Publish (retry_publish x))) infl) (Attach i Finish) end) s v).
    { intros s0. destruct wl; [|apply H]. cbn [local fst snd at_attach]. auto. }
    destruct subs as [|f fs]; [apply Hw|]. cbn [local at_attach]. split; [exact I|]. revert s. generalize (f :: fs). intros l. induction l as [|g l IH]; intros s; cbn [restore_all].
    - cbn [local at_attach]. auto.
    - apply local_sub_one; cbn [at_attach]; auto.
  Qed.
  Lemma at_begin c u a r subs wl infl s v : local i id pid ok at_attach (begin_code c i u a r subs wl infl) s v.
  Proof.
    unfold begin_code, client_id_of. cbn [local at_attach]. split; [exact I|]. split; [reflexivity|]. intros _. destruct (begin u r s) as [ack s']. cbn [fst snd]. intros Hid.
    destruct a; [|cbn [local at_attach]; auto]. cbn [local fst snd at_attach upd]. split; [exact I|]. split; [exact I|]. split; [reflexivity|]. intros _ _. rewrite Hid, bytes_eqb_refl.
    split; [exact I|]. intros _ _. split; [exact I|]. split; [reflexivity|]. intros _ _.
    destruct (se_will s'); cbn [local at_attach upd]; [split; [exact I|]; intros _ _|]; (split; [exact I|]; apply at_restore; discriminate).
  Qed.
End Moments.

(** ** The beginning of the CONNECT *)
Section Until.
  Context (c : nat).
  Definition begins (k : code) : Prop := exists i u a r subs wl infl, k = begin_code c i u a r subs wl infl.
  Fixpoint until (k : code) : Prop :=
    begins k \/
    match k with
    | Finish => True
    | Emit _ k | Send _ _ k | Leave k | Acquire _ k | Release _ k | Forget _ k => until k
    | Sess _ f => forall s n, until (snd (f s n))
    | Sub _ k => forall n, until (k n)
    | Walk _ k => forall ps, until (k ps)
    | Store _ k => forall r, until (k r)
    | Find _ k => forall r, until (k r)
    | New _ _ k => forall i, until (k i)
    | Attach _ _ | Detach _ => False
    end.
  Lemma until_begins k : begins k -> until k.
  Proof. intros H. destruct k; left; exact H. Qed.
  Lemma until_connect cfg k u a : until (connect_code cfg c k u a).
  Proof.
    unfold connect_code. destruct (negb (authenticated cfg k)); [cbn [until]; auto|]. cbv zeta.
    assert (Hgo : forall r subs wl infl, until (enter_code k (fun i => begin_code c i u a r subs wl infl))).
    { intros. unfold enter_code. cbv zeta. cbn [until]. right. intros [j|]; cbn [until snd]; right; intros; apply until_begins; do 7 eexists; reflexivity. }
    cbn [until]. right. destruct (cf_clean_start (c_flags k)); cbn [until]; auto 10.
    right. intros [j|]; [apply Hgo|]. cbn [until]. right. intros r. destruct r; try apply Hgo. destruct s as [st|]; [|apply Hgo]. cbn [until]. auto 10.
  Qed.
  Lemma until_next k w o k1 : until k -> next k w = Some (o, k1) -> begins k \/ (until k1 /\ (forall j, o <> OAttach j) /\ o <> ODetach).
  Proof.
    destruct k; cbn [until Conc.next]; intros [H|H] E; auto; try discriminate; try contradiction; right;
      try (injection E as <- <-; split; [apply H|split; discriminate]; fail).
    destruct (nth_error (w_heap w) i) as [s|]; [|discriminate]. specialize (H s (bk_tree (w_broker w))). destruct (f s (bk_tree (w_broker w))) as [s' k'].
    injection E as <- <-. split; [exact H|split; discriminate].
  Qed.
End Until.

(** ** Runs *)
Section Runs.
  Context {st0 : mem_store} (cfg : config) (TR : list item) (xf : conf) (c : nat) (id : bytes) (pid : N) {Hsane : Sane cfg st0}.
  Context (HTR : mruns cfg (conf_on st0) TR xf) (Htx : forall c, Forall texts (events_of c TR)) (Hown : owns c id TR).
  Lemma id_at pre rest y i s : TR = pre ++ rest -> mruns cfg (conf_on st0) pre y -> mine c TR i -> nth_error (w_heap (cn_world y)) i = Some s -> se_client_id s = id.
  Proof.
    intros E Hp Hm Hs. assert (Hpr : exists P, prov_inv cfg P pre y).
    { apply (@prov_at st0 cfg _ _ Hsane); [exact Hp|]. intros d. specialize (Htx d). rewrite E in Htx. eapply texts_app_l, Htx. }
    destruct Hpr as [P Hpr]. destruct (pi_heap _ _ _ _ Hpr _ _ Hs) as (_ & _ & (e & He1 & He2) & _). apply (mine_app _ _ _ rest) in He1. apply (named_app _ _ _ rest) in He2. rewrite <- E in He1, He2.
    pose proof (own_runs _ _ _ _ HTR [] own_new) as Ho. cbn [app] in Ho. assert (Hl : linked TR c e) by (eapply mine_linked; [eapply own_once; exact Ho|exact Hm|exact He1]).
    apply (owns_linked _ _ _ _ Hown) in Hl. subst e. apply Hown, He2.
  Qed.
  Lemma other_keeps d o w s i : In (IStep d o) TR -> d <> c -> mine c TR i -> nth_error (w_heap w) i = Some s ->
    nth_error (w_heap (apply d o w)) i = Some s.
  Proof. intros Hin Hd Hm Hs. apply heap_other; [exact Hs|]. intros a b. eapply (nobody_else _ _ _ _ _ HTR Htx Hown); eauto. Qed.
  Lemma other_view d o w : In (IStep d o) TR -> d <> c -> view id pid (w_store (apply d o w)) = view id pid (w_store w).
  Proof.
    intros Hin Hd. destruct o; try reflexivity. change (w_store (apply d (OStore o r) w)) with (snd (mem_step (w_store w) o)). rewrite view_step. apply upd_other.
    eapply (nobody_else _ _ _ _ _ HTR Htx Hown); eauto.
  Qed.
  Definition mostly (i : nat) (x : conf) : Prop := aget Nat.eqb c (w_conns (cn_world x)) = Some i \/ aget Nat.eqb c (w_conns (cn_world x)) = None.
  Lemma mostly_step i o x ts ls rs : (forall j, o = OAttach j -> j = i) -> mostly i x -> mostly i (Mk_conf (apply c o (cn_world x)) ts ls rs).
  Proof.
    intros Ha Hc. unfold mostly in *. cbn [cn_world]. destruct o; try exact Hc; cbn [apply w_conns set_conns].
    - rewrite (aget_put_same _ nateqb_spec). left. f_equal. apply Ha. reflexivity.
    - rewrite (aget_del_same _ nateqb_spec). auto.
  Qed.
  (** The task of [c] while it runs. *)
  Lemma local_runs i (Ok : sop -> Prop) (A : code -> session -> view_t -> Prop) x tr x' : mruns cfg x tr x' -> forall pre rest k s, TR = pre ++ tr ++ rest -> mruns cfg (conf_on st0) pre x -> mine c TR i ->
    ~ In (IEnd c) tr -> (forall p r, In (IStep c (OStore p r)) tr -> Ok p) ->
    aget Nat.eqb c (cn_tasks x) = Some k -> nth_error (w_heap (cn_world x)) i = Some s -> local i id pid Ok A k s (view id pid (w_store (cn_world x))) ->
    mostly i x -> mostly i x' /\ exists k' s', aget Nat.eqb c (cn_tasks x') = Some k' /\ nth_error (w_heap (cn_world x')) i = Some s' /\
      local i id pid Ok A k' s' (view id pid (w_store (cn_world x'))).
  Proof.
    induction 1 as [x|x m x1 j tr x2 Hs Hr IH]; intros pre rest k s E Hp Hm Hn Hok Hk Hi HL Hc; [split; [exact Hc|eauto]|].
    assert (Hpre1 : mruns cfg (conf_on st0) (pre ++ [j]) x1) by (apply mruns_app; exists x; split; [exact Hp|]; econstructor; [exact Hs|constructor]).
    assert (E1 : TR = (pre ++ [j]) ++ tr ++ rest) by (rewrite E, <- app_assoc; reflexivity).
    assert (Hj : In j TR) by (rewrite E1; apply in_or_app; left; apply in_or_app; right; left; reflexivity).
    assert (Hn1 : ~ In (IEnd c) tr) by (intros H; apply Hn; right; exact H).
    assert (Hok1 : forall p r, In (IStep c (OStore p r)) tr -> Ok p) by (intros p r H; eapply Hok; right; exact H).
    apply mstep_inv in Hs.
    destruct Hs as [(e & -> & -> & Hne & Hni & ->)|[(d & -> & -> & Hd & ->)|(d & k0 & o & k1 & -> & -> & Hd & Hnx & Hmy & ->)]].
    - destruct (Nat.eq_dec (event_conn e) c) as [Ed|Ed]; [rewrite Ed in Hni; congruence|].
      eapply (IH (pre ++ [IStart e]) rest k s); auto. cbn [cn_tasks]. rewrite tasks_other; auto.
    - destruct (Nat.eq_dec d c) as [->|Ed]; [destruct Hn; left; reflexivity|].
      eapply (IH (pre ++ [IEnd d]) rest k s); auto. cbn [cn_tasks]. rewrite tasks_del; auto.
    - destruct (Nat.eq_dec d c) as [->|Ed].
      + assert (k0 = k) by congruence. subst k0. destruct (local_next _ _ _ _ _ c _ _ _ _ _ HL Hnx Hi) as (Ha & s' & Hs' & HL').
        * intros p r ->. eapply Hok. left. reflexivity.
        * intros s' Hs'. eapply id_at; [exact E1|exact Hpre1|exact Hm|exact Hs'].
        * eapply (IH (pre ++ [IStep c o]) rest k1 s'); auto; [cbn [cn_tasks]; apply (aget_put_same _ nateqb_spec)|apply mostly_step; auto].
      + eapply (IH (pre ++ [IStep d o]) rest k s); auto; cbn [cn_tasks cn_world].
        * rewrite tasks_other; auto.
        * eapply other_keeps; eauto.
        * rewrite other_view; auto.
        * unfold mostly. cbn [cn_world]. rewrite conns_apply by auto. exact Hc.
  Qed.
  Section Held.
    Context (i : nat) (F : bytes -> Prop) (P : Prop) (z : inflight) (Hmi : mine c TR i).
    Definition held (x : conf) : Prop :=
      mostly i x /\ exists s, nth_error (w_heap (cn_world x)) i = Some s /\
        match aget Nat.eqb c (cn_tasks x) with
        | None => kept F P z s (view id pid (w_store (cn_world x)))
        | Some k => local i id pid (spare id pid P) (fun _ => kept F P z) k s (view id pid (w_store (cn_world x)))
        end.
    Lemma held_kept x : held x -> exists s, nth_error (w_heap (cn_world x)) i = Some s /\ kept F P z s (view id pid (w_store (cn_world x))).
    Proof. intros (_ & s & Hs & H). exists s. split; [exact Hs|]. destruct (aget _ _ _); [eapply local_at in H|]; exact H. Qed.
    Definition gentle (j : item) : Prop :=
      (forall e, j = IStart e -> event_conn e = c -> spares pid F P e) /\ (forall p r, j = IStep c (OStore p r) -> spare id pid P p).
    Lemma held_step pre rest x m x1 j : mstep cfg x m = Some (x1, j) -> TR = (pre ++ [j]) ++ rest -> mruns cfg (conf_on st0) (pre ++ [j]) x1 -> gentle j -> held x -> held x1.
    Proof.
      intros Hs E Hp [G1 G2] (Hc & s & Hi & H).
      assert (Hj : In j TR) by (rewrite E; apply in_or_app; left; apply in_or_app; right; left; reflexivity).
      apply mstep_inv in Hs.
      destruct Hs as [(e & -> & -> & Hne & Hni & ->)|[(d & -> & -> & Hd & ->)|(d & k0 & o & k1 & -> & -> & Hd & Hnx & Hmy & ->)]].
      - split; [exact Hc|]. exists s. split; [exact Hi|]. cbn [cn_tasks cn_world]. destruct (Nat.eq_dec (event_conn e) c) as [Ed|Ed].
        + rewrite Ed in *. rewrite Hni in H. rewrite (aget_put_same _ nateqb_spec). specialize (G1 e eq_refl Ed). unfold mostly in Hc. destruct Hc as [-> | ->].
          * apply local_handler; auto.
          * assert (Ef : handler cfg None e = Finish) by (destruct e; try reflexivity; destruct G1). rewrite Ef. cbn [local]. auto.
        + rewrite tasks_other by exact Ed. exact H.
      - split; [exact Hc|]. exists s. split; [exact Hi|]. cbn [cn_tasks cn_world]. destruct (Nat.eq_dec d c) as [->|Ed].
        + rewrite (aget_del_same _ nateqb_spec). rewrite Hd in H. eapply local_at in H. exact H.
        + rewrite tasks_del by exact Ed. exact H.
      - destruct (Nat.eq_dec d c) as [->|Ed].
        + rewrite Hd in H. destruct (local_next _ _ _ _ _ c _ _ _ _ _ H Hnx Hi) as (Ha & s' & Hs' & HL').
          * intros p r ->. eapply G2. reflexivity.
          * intros s' Hs'. eapply id_at; [exact E|exact Hp|exact Hmi|exact Hs'].
          * split.
            -- apply mostly_step; auto.
            -- exists s'. cbn [cn_world cn_tasks]. split; [exact Hs'|]. rewrite (aget_put_same _ nateqb_spec). exact HL'.
        + split; [unfold mostly in *; cbn [cn_world]; rewrite conns_apply by auto; exact Hc|]. exists s. cbn [cn_world cn_tasks].
          split; [eapply other_keeps; eauto|]. rewrite tasks_other by exact Ed. rewrite other_view by auto. exact H.
    Qed.
    Lemma held_runs x tr x' : mruns cfg x tr x' -> forall pre rest, TR = pre ++ tr ++ rest -> mruns cfg (conf_on st0) pre x -> (forall j, In j tr -> gentle j) -> held x -> held x'.
    Proof.
      induction 1 as [x|x m x1 j tr x2 Hs Hr IH]; intros pre rest E Hp G H; [exact H|].
      assert (Hpre1 : mruns cfg (conf_on st0) (pre ++ [j]) x1) by (apply mruns_app; exists x; split; [exact Hp|]; econstructor; [exact Hs|constructor]).
      assert (E1 : TR = (pre ++ [j]) ++ tr ++ rest) by (rewrite E, <- app_assoc; reflexivity).
      eapply (IH (pre ++ [j]) rest); auto; [intros; apply G; right; auto|]. eapply held_step; eauto. apply G. left. reflexivity.
    Qed.
  End Held.

  (** While [c] is served its session is stored. *)
  Definition some_entry (v : view_t) : Prop := fst v <> None.
  Definition noflight : inflight := Mk_inflight 0 [] None AtMostOnce false.
  Definition registered (x : conf) : Prop :=
    match aget Nat.eqb c (cn_tasks x) with
    | None => forall i, aget Nat.eqb c (w_conns (cn_world x)) = Some i -> mine c TR i /\ (exists s, nth_error (w_heap (cn_world x)) i = Some s) /\ some_entry (view id pid (w_store (cn_world x)))
    | Some k =>
        (aget Nat.eqb c (w_conns (cn_world x)) = None /\ until c k)
        \/ (exists i s, mine c TR i /\ aget Nat.eqb c (w_conns (cn_world x)) = None /\ nth_error (w_heap (cn_world x)) i = Some s /\
              local i id pid (fun _ => True) at_attach k s (view id pid (w_store (cn_world x))))
        \/ (exists i, mine c TR i /\ held i (fun _ => False) False noflight x)
    end.
  Lemma until_none e : event_conn e = c -> until c (handler cfg None e).
  Proof.
    intros Hc. destruct e as [d first u a|d k|d f|d|d|]; cbn [handler until]; auto. cbn [event_conn] in Hc. subst d.
    destruct first as [[]|]; cbn [until]; auto. apply until_connect.
  Qed.
  Lemma kept_entry s v : kept (fun _ => False) False noflight s v <-> some_entry v.
  Proof.
    unfold kept, some_entry. split.
    - intros (_ & (y & H & _) & _). congruence.
    - intros H. split; [contradiction|]. split; [|contradiction]. destruct (fst v) as [y|]; [|congruence]. exists y. split; [reflexivity|contradiction].
  Qed.
  Lemma registered_step pre rest x m x1 j : mstep cfg x m = Some (x1, j) -> TR = (pre ++ [j]) ++ rest -> mruns cfg (conf_on st0) pre x -> mruns cfg (conf_on st0) (pre ++ [j]) x1 ->
    registered x -> registered x1.
  Proof.
    intros Hs E Hp0 Hp H. pose proof Hs as Hs0. unfold registered in H |- *.
    assert (Hj : In j TR) by (rewrite E; apply in_or_app; left; apply in_or_app; right; left; reflexivity).
    apply mstep_inv in Hs.
    destruct Hs as [(e & -> & -> & Hne & Hni & ->)|[(d & -> & -> & Hd & ->)|(d & k0 & o & k1 & -> & -> & Hd & Hnx & Hmy & ->)]].
    - destruct (Nat.eq_dec (event_conn e) c) as [Ed|Ed].
      + rewrite Ed in *. rewrite Hni in H. cbn [cn_tasks cn_world]. rewrite (aget_put_same _ nateqb_spec).
        destruct (aget Nat.eqb c (w_conns (cn_world x))) as [i|] eqn:Ec; [|left; split; [reflexivity|apply until_none, Ed]].
        destruct (H i eq_refl) as (Hm & (s & Hi) & Hv). right. right. exists i. split; [exact Hm|]. split; [left; exact Ec|]. exists s. split; [exact Hi|].
        cbn [cn_tasks cn_world]. rewrite (aget_put_same _ nateqb_spec). apply (kept_entry s) in Hv.
        destruct e as [d first u a|d k|d f|d|d|]; try (apply local_handler; [exact I|exact Hv]).
        * cbn [handler local]. split; [exact Hv|exact I].
        * apply local_handler; [|exact Hv]. destruct k; cbn [spares]; auto; contradiction.
      + cbn [cn_tasks]. rewrite tasks_other by exact Ed. destruct (aget Nat.eqb c (cn_tasks x)) eqn:Et; [|exact H].
        destruct H as [H|[H|(i & Hm & H)]]; [left; exact H|right; left; exact H|right; right]. exists i. split; [exact Hm|].
        eapply held_step; eauto. split; [intros e' [= <-]; contradiction|discriminate].
    - destruct (Nat.eq_dec d c) as [->|Ed].
      + cbn [cn_tasks cn_world]. rewrite (aget_del_same _ nateqb_spec). rewrite Hd in H. intros i Hi.
        destruct H as [[H _]|[(i' & s & _ & H & _)|(i' & Hm & H)]]; try congruence. destruct H as ([H|H] & s & Hs & HL); [|congruence].
        assert (i' = i) by congruence. subst i'. split; [exact Hm|]. split; [eauto|]. rewrite Hd in HL. apply local_at in HL. apply (kept_entry s), HL.
      + cbn [cn_tasks]. rewrite tasks_del by exact Ed. destruct (aget Nat.eqb c (cn_tasks x)) eqn:Et; [|exact H].
        destruct H as [H|[H|(i & Hm & H)]]; [left; exact H|right; left; exact H|right; right]. exists i. split; [exact Hm|].
        eapply held_step; eauto. split; discriminate.
    - destruct (Nat.eq_dec d c) as [->|Ed].
      + rewrite Hd in H. cbn [cn_tasks cn_world]. rewrite (aget_put_same _ nateqb_spec).
        assert (Hloc : forall i s, mine c TR i -> nth_error (w_heap (cn_world x)) i = Some s ->
          local i id pid (fun _ => True) at_attach k0 s (view id pid (w_store (cn_world x))) ->
          (forall j, o = OAttach j -> j = i) /\ exists s', nth_error (w_heap (apply c o (cn_world x))) i = Some s' /\
            local i id pid (fun _ => True) at_attach k1 s' (view id pid (w_store (apply c o (cn_world x))))).
        { intros i s Hm Hi HL. eapply local_next; [exact HL|exact Hnx|exact Hi|auto|]. intros s' Hs'. eapply id_at; [exact E|exact Hp|exact Hm|exact Hs']. }
        destruct H as [[Hc H]|[(i & s & Hm & Hc & Hi & HL)|(i & Hm & H)]].
        * destruct (until_next _ _ _ _ _ H Hnx) as [(i & u & a & r & subs & wl & infl & ->)|(Hu & Ha & Hde)].
          -- right. left. assert (Hpr : own_inv pre x) by (apply (own_runs _ _ _ _ Hp0 [] own_new)).
             pose proof (oi_tasks _ _ Hpr _ _ Hd) as Hw. unfold begin_code in Hw. cbn [within] in Hw. destruct Hw as [Hm _].
             apply (mine_app _ _ _ ([IStep c o] ++ rest)) in Hm. rewrite app_assoc, <- E in Hm.
             destruct (nth_error (w_heap (cn_world x)) i) as [s|] eqn:Hi; [|unfold begin_code in Hnx; cbn [Conc.next] in Hnx; rewrite Hi in Hnx; discriminate].
             destruct (Hloc i s Hm Hi (at_begin _ _ _ _ _ _ _ _ _ _ _ _)) as (_ & s' & Hs' & HL'). exists i, s'. repeat split; auto.
             unfold begin_code in Hnx. cbn [Conc.next] in Hnx. rewrite Hi in Hnx. destruct (begin u r s). injection Hnx as <- _. exact Hc.
          -- left. split; [|exact Hu]. destruct o; try exact Hc; [destruct (Ha i eq_refl)|destruct (Hde eq_refl)].
        * destruct (Hloc i s Hm Hi HL) as (Ha & s' & Hs' & HL').
          destruct o; try (right; left; exists i, s'; repeat split; auto; fail).
          -- right. right. exists i. split; [exact Hm|]. assert (i0 = i) by (apply Ha; reflexivity). subst i0.
             destruct k0; cbn [Conc.next] in Hnx; try discriminate; [destruct (nth_error _ _); [destruct (f _ _)|]; discriminate|]. injection Hnx as -> ->.
             apply local_at in HL. cbn [at_attach] in HL. destruct HL as [-> Hv]. split; [left; cbn [cn_world apply w_conns set_conns]; apply (aget_put_same _ nateqb_spec)|].
             exists s. cbn [cn_world cn_tasks]. rewrite (aget_put_same _ nateqb_spec). split; [exact Hi|]. cbn [local]. split; [|exact I]. apply (kept_entry s). exact Hv.
          -- right. left. exists i, s'. repeat split; auto. cbn [apply w_conns set_conns]. apply (aget_del_same _ nateqb_spec).
        * right. right. exists i. split; [exact Hm|]. eapply held_step; eauto. split; [discriminate|]. intros p r _. red. contradiction.
      + cbn [cn_tasks cn_world]. rewrite tasks_other by exact Ed. rewrite conns_apply by auto.
        assert (Hh : forall i s, mine c TR i -> nth_error (w_heap (cn_world x)) i = Some s -> nth_error (w_heap (apply d o (cn_world x))) i = Some s)
          by (intros; eapply other_keeps; eauto).
        destruct (aget Nat.eqb c (cn_tasks x)) as [k|] eqn:Et.
        * destruct H as [H|[(i & s & Hm & Hc & Hi & HL)|(i & Hm & H)]]; [left; exact H|right; left|right; right].
          -- exists i, s. repeat split; auto. rewrite other_view by auto. exact HL.
          -- exists i. split; [exact Hm|]. eapply held_step; eauto. split; [discriminate|]. intros p r [= -> _]. contradiction.
        * intros i Hi. destruct (H i Hi) as (Hm & (s & Hs) & Hv). split; [exact Hm|]. split; [eauto|]. rewrite other_view by auto. exact Hv.
  Qed.
  Lemma registered_runs x tr x' : mruns cfg x tr x' -> forall pre rest, TR = pre ++ tr ++ rest -> mruns cfg (conf_on st0) pre x -> registered x -> registered x'.
  Proof.
    induction 1 as [x|x m x1 j tr x2 Hs Hr IH]; intros pre rest E Hp H; [exact H|].
    assert (Hpre1 : mruns cfg (conf_on st0) (pre ++ [j]) x1) by (apply mruns_app; exists x; split; [exact Hp|]; econstructor; [exact Hs|constructor]).
    assert (E1 : TR = (pre ++ [j]) ++ tr ++ rest) by (rewrite E, <- app_assoc; reflexivity).
    eapply (IH (pre ++ [j]) rest); auto. eapply registered_step; eauto.
  Qed.
  Lemma registered_at pre rest x : TR = pre ++ rest -> mruns cfg (conf_on st0) pre x -> registered x.
  Proof. intros E Hp. apply (registered_runs _ _ _ Hp [] rest); [exact E|constructor|]. unfold registered. cbn. discriminate. Qed.
End Runs.
