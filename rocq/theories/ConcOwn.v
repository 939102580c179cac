(** Facts about who uses which session when handlers run concurrently. *)
From Verif Require Import Base Utf8 Codec SpecCodec Tac Maps CodecFacts Topic SpecTopic TopicFacts Property PacketProps Packets
  TopicTree TreeFacts Storage SpecStorage StorageFacts Broker SpecBroker BrokerFacts Auth Session Server SpecServer SessionFacts ServerFacts
  Conc SpecConc ConcFacts ConcLocks ConcRoute.

(** A handler uses only sessions in [J] and those registered for identifiers in [I]. *)
Fixpoint within (I : bytes -> Prop) (J : nat -> Prop) (k : code) : Prop :=
  match k with
  | Finish => True
  | Emit _ k | Send _ _ k | Leave k | Detach k | Acquire _ k | Release _ k => within I J k
  | Sess i f => J i /\ forall s n, within I J (snd (f s n))
  | Sub _ k => forall n, within I J (k n)
  | Walk _ k => forall ps, within I J (k ps)
  | Store _ k => forall r, within I J (k r)
  | Find id k => I id /\ forall r, within I (fun j => J j \/ r = Some j) (k r)
  | Forget id k => I id /\ within I J k
  | New id _ k => I id /\ forall i, within I (fun j => J j \/ i = j) (k i)
  | Attach i k => J i /\ within I J k
  end.
Lemma within_mono k : forall (I I' : bytes -> Prop) (J J' : nat -> Prop), (forall id, I id -> I' id) -> (forall i, J i -> J' i) -> within I J k -> within I' J' k.
Proof.
  induction k using code_induction; intros P P' J J' HI HJ; cbn [within]; auto; try (intros HW; eapply IHk; eauto; fail);
    try (intros HW ?; eapply H; eauto; fail).
  - intros [H1 H2]. split; auto. intros s n. eapply H; eauto.
  - intros [H1 H2]. split; auto. intros r. eapply H; [exact HI| |apply H2]. intros j [Hj|Hj]; auto.
  - intros [H1 H2]. split; auto. eapply IHk; eauto.
  - intros [H1 H2]. split; auto. intros r. eapply H; [exact HI| |apply H2]. intros j [Hj|Hj]; auto.
  - intros [H1 H2]. split; auto. eapply IHk; eauto.
Qed.

(** ** The handlers *)
Section Handlers.
  Context (I : bytes -> Prop) (J : nat -> Prop).
  Lemma within_sends ps m k : within I J k -> within I J (sends ps m k).
  Proof. induction ps; simpl; auto. Qed.
  Lemma within_publish t m k : within I J k -> within I J (publish t m k).
  Proof.
    intros H. unfold publish, route. destruct (mg_retain m); [destruct (mg_payload m) as [[|]|]|]; simpl; intros; apply within_sends; exact H.
  Qed.
  Lemma within_end c i : J i -> within I J (end_code c i).
  Proof.
    intros H. unfold end_code, client_id_of. cbn [within snd]. split; [exact H|]. intros s n. destruct (se_will s); [|exact Logic.I].
    apply within_publish. cbn [within snd]. auto.
  Qed.
  Lemma within_respond c r : within I J (respond c r).
  Proof. destruct r; exact Logic.I. Qed.
  Lemma within_subscribe_all i fs : forall k, J i -> (forall rs, within I J (k rs)) -> within I J (subscribe_all i fs k).
  Proof.
    induction fs as [|[f o] fs IH]; intros k Hi Hk; cbn [subscribe_all]; auto.
    destruct (validate_subscribe_filter f); [apply IH; auto|]. unfold subscribe_one. cbn [within snd]. auto.
  Qed.
  Lemma within_save i k : J i -> within I J k -> within I J (save_subscriptions i k).
  Proof. intros Hi Hk. unfold save_subscriptions, client_id_of. cbn [within snd]. auto 10. Qed.
  Lemma within_simple c i h after : J i -> (forall k, within I J k -> within I J (after k)) -> within I J (simple_code c i h after).
  Proof.
    intros Hi Ha. unfold simple_code. cbn [within]. split; [exact Hi|]. intros s n. destruct (h s) as [[r|e|] s']; cbn [snd].
    - apply Ha, within_respond.
    - apply within_end, Hi.
    - exact Logic.I.
  Qed.
  Lemma within_packet cfg c i k : J i -> within I J (packet_code cfg c i k).
  Proof.
    intros Hi. pose proof (within_end c i Hi) as He.
    assert (Hr : forall n k', within I J k' -> within I J (remove_inflight i n k')) by (intros n k' H; unfold remove_inflight, client_id_of; cbn [within snd]; auto).
    destruct k as [k|k|k|k|k|k|k|k|k|k|k| | |d|k]; cbn [packet_code]; try exact He; try (apply within_simple; auto; fail).
    - unfold publish_code. destruct (validate_publish_topic _); [exact He|].
      destruct (pb_qos k); destruct (pb_packet_id k); cbn [within snd]; try split; auto; intros; apply within_publish; auto using within_respond.
    - unfold subscribe_code. cbn [within snd]. split; [exact Hi|]. intros s n. apply within_subscribe_all; auto. intros rs. cbn [within].
      apply within_save; auto. exact Logic.I.
    - unfold unsubscribe_code. cbn [within]. split; [exact Hi|]. intros s n. destruct (unsubscribe_loop _ _) as [rs subs]. cbn [snd].
      apply within_save; auto. exact Logic.I.
    - exact Logic.I.
    - unfold disconnect_code, client_id_of. cbn [within snd]. auto.
  Qed.
  Lemma within_out c i f : J i -> within I J (out_code c i f).
  Proof.
    intros Hi. unfold out_code. cbn [within]. split; [exact Hi|]. intros s n. destruct (process_outgoing _ _ _) as [[[p|e|] s']|]; cbn [snd]; try exact Logic.I.
    destruct (pb_packet_id p); [destruct (pb_qos p)|]; unfold client_id_of; cbn [within snd]; auto.
  Qed.
  Lemma within_emits os k : within I J k -> within I J (emits os k).
  Proof. induction os; simpl; auto. Qed.
  Lemma within_restore_all i fs k : J i -> within I J k -> within I J (restore_all i fs k).
  Proof. intros Hi Hk. induction fs as [|f fs IH]; cbn [restore_all]; auto. unfold subscribe_one. cbn [within snd]. auto. Qed.
  Lemma within_restore c i subs wl infl : J i -> within I J (restore_code c i subs wl infl).
  Proof.
    intros Hi. unfold restore_code. cbv zeta.
    assert (H : within I J (emits (map (fun x => Sent c (Publish (retry_publish x))) infl) (Attach i Finish))) by (apply within_emits; simpl; auto).
    assert (Hw : within I J (match wl with Some x => Sess i (fun s _ => (set_will (Some x) s, emits (map (fun x => Sent c (Publish (retry_publish x))) infl) (Attach i Finish)))
       | None => emits (map (fun x => Sent c (Publish (retry_publish x))) infl) (Attach i Finish) end)).
    { destruct wl; cbn [within snd]; auto. }
    destruct subs as [|f fs]; [exact Hw|]. cbn [within]. apply within_restore_all; auto.
  Qed.
  Lemma within_begin c i uuid a resume subs wl infl : J i -> within I J (begin_code c i uuid a resume subs wl infl).
  Proof.
    intros Hi. unfold begin_code, client_id_of. cbn [within]. split; [exact Hi|]. intros s n. destruct (begin uuid resume s) as [ack s']. cbn [snd].
    destruct a; [|exact Logic.I]. cbn [within snd]. split; auto. intros s1 n1 _. split; auto. intros s2 n2.
    destruct (se_will s2); cbn [within]; intros; apply within_restore, Hi.
  Qed.
End Handlers.
Lemma within_connect (I : bytes -> Prop) J cfg c k uuid a : I (presented k) -> within I J (connect_code cfg c k uuid a).
Proof.
  intros HI. unfold connect_code. destruct (negb (authenticated cfg k)); [exact Logic.I|]. cbv zeta. cbn [within]. fold (presented k).
  assert (Hgo : forall J' resume subs wl infl, within I J' (enter_code k (fun i => begin_code c i uuid a resume subs wl infl))).
  { intros. unfold enter_code. cbv zeta. cbn [within]. fold (presented k). split; [exact HI|]. intros [i|]; cbn [within snd].
    - split; [auto|]. intros. apply within_begin. auto.
    - split; [exact HI|]. intros i. apply within_begin. auto. }
  destruct (cf_clean_start (c_flags k)); cbn [within].
  - auto.
  - split; [exact HI|]. intros [i|]; [apply Hgo|]. cbn [within]. intros r. destruct r; try apply Hgo. destruct s as [st|]; [|apply Hgo]. cbn [within]. intros. apply Hgo.
Qed.
Lemma within_handler (I : bytes -> Prop) (J : nat -> Prop) cfg sv e : (forall i, sv = Some i -> J i) ->
  (forall c k u a, e = EFirst c (Some (Connect k)) u a -> I (presented k)) -> within I J (handler cfg sv e).
Proof.
  intros HJ HI. destruct e as [c first u a|c k|c f|c|c|]; cbn [handler]; try exact Logic.I.
  - destruct sv as [i|]; [exact Logic.I|]. destruct first as [[]|]; try exact Logic.I. apply within_connect. eapply HI. reflexivity.
  - destruct sv as [i|]; [|exact Logic.I]. apply within_packet. auto.
  - destruct sv as [i|]; [|exact Logic.I]. apply within_out. auto.
  - destruct sv as [i|]; [|exact Logic.I]. apply within_end. auto.
  - destruct sv as [i|]; exact Logic.I.
Qed.

(** ** The invariant *)
Definition mine (c : nat) (tr : list item) (i : nat) : Prop := exists id, created i id tr /\ came c id tr.
Record own_inv (tr : list item) (x : conf) : Prop := {
  oi_manager : forall id i, aget bytes_eqb id (w_manager (cn_world x)) = Some i -> created i id tr;
  oi_conns : forall c i, aget Nat.eqb c (w_conns (cn_world x)) = Some i -> mine c tr i;
  oi_tasks : forall c k, aget Nat.eqb c (cn_tasks x) = Some k -> within (fun id => came c id tr) (mine c tr) k;
  oi_heap : forall i id, created i id tr -> (i < length (w_heap (cn_world x)))%nat;
  oi_once : forall i id id', created i id tr -> created i id' tr -> id = id';
  oi_uses : forall c i, uses c i tr -> mine c tr i
}.
Lemma came_app c id a b : came c id a -> came c id (a ++ b).
Proof. intros (k & u & w & H & E). exists k, u, w. split; auto. apply in_or_app. auto. Qed.
Lemma created_app i id a b : created i id a -> created i id (a ++ b).
Proof. intros (d & s & H). exists d, s. apply in_or_app. auto. Qed.
Lemma mine_app c i a b : mine c a i -> mine c (a ++ b) i.
Proof. intros (id & H1 & H2). exists id. split; [apply created_app|apply came_app]; auto. Qed.
Lemma created_snoc i id a j : created i id (a ++ [j]) -> created i id a \/ exists d s, j = IStep d (ONew id i s).
Proof. intros (d & s & H). apply in_app_iff in H. destruct H as [H|[H|[]]]; [left; exists d, s; auto|right; eauto]. Qed.
Lemma uses_snoc c i a j : uses c i (a ++ [j]) -> uses c i a \/ exists s s', j = IStep c (OSess i s s').
Proof. intros (d & s & H). apply in_app_iff in H. destruct H as [H|[H|[]]]; [left; exists d, s; auto|right; eauto]. Qed.
Lemma heap_apply c o w : (length (w_heap (apply c o w)) = length (w_heap w) + match o with ONew _ _ _ => 1 | _ => 0 end)%nat.
Proof.
  destruct o; simpl; try lia.
  - rewrite list_set_length. lia.
  - rewrite app_length. reflexivity.
Qed.
Lemma within_next I J k w o k1 : within I J k -> next k w = Some (o, k1) ->
  within I (fun j => J j \/ (exists id, o = OFind id (Some j)) \/ (exists id s, o = ONew id j s)) k1
  /\ match o with OSess i _ _ | OAttach i => J i | OFind id _ | OForget id | ONew id _ _ => I id | _ => True end.
Proof.
  destruct k; cbn [within Conc.next]; intros H E; try discriminate;
    try (injection E as <- <-; split; [eapply within_mono; [| |apply H]; auto|exact Logic.I]; fail);
    try (injection E as <- <-; split; [eapply within_mono; [| |apply H]; auto|apply H]; fail).
  - destruct (nth_error (w_heap w) i) as [s|]; [|discriminate]. destruct H as [H1 H2]. specialize (H2 s (bk_tree (w_broker w))).
    destruct (f s (bk_tree (w_broker w))) as [s' k']. injection E as <- <-. split; [eapply within_mono; [| |exact H2]; auto|exact H1].
  - injection E as <- <-. destruct H as [H1 H2]. split; [|exact H1]. eapply within_mono; [| |apply H2]; auto.
    cbv beta. intros j [Hj|Hj]; [auto|]. right. left. exists id. rewrite Hj. reflexivity.
  - injection E as <- <-. destruct H as [H1 H2]. split; [|exact H1]. eapply within_mono; [| |apply H2]; auto.
    cbv beta. intros j [Hj|<-]; [auto|]. right. right. eauto.
Qed.
Lemma own_step cfg tr x m x1 j : own_inv tr x -> mstep cfg x m = Some (x1, j) -> own_inv (tr ++ [j]) x1.
Proof.
  intros Hi Hs. apply mstep_inv in Hs.
  destruct Hs as [(e & -> & -> & He & Hn & ->)|[(d & -> & -> & Hd & ->)|(d & k0 & o & k1 & -> & -> & Hd & Hn & Hm & ->)]].
  - assert (Hc : forall i id, created i id (tr ++ [IStart e]) -> created i id tr).
    { intros i id H. apply created_snoc in H. destruct H as [H|(d & s & H)]; [exact H|discriminate]. }
    constructor; cbn [cn_world cn_tasks].
    + intros. apply created_app. eapply oi_manager; eauto.
    + intros. apply mine_app. eapply oi_conns; eauto.
    + intros c k Hk. destruct (Nat.eq_dec (event_conn e) c) as [<-|E].
      * rewrite (aget_put_same _ nateqb_spec) in Hk. injection Hk as <-. apply within_handler.
        -- intros i H. apply mine_app. eapply oi_conns; eauto.
        -- intros c k u a ->. exists k, u, a. split; auto. apply in_or_app. right. left. reflexivity.
      * rewrite tasks_other in Hk by exact E. eapply within_mono; [| |eapply oi_tasks; eauto]; cbv beta; intros; [apply came_app|apply mine_app]; auto.
    + intros i id H. eapply oi_heap; eauto.
    + intros i id id' H H'. eapply oi_once; eauto.
    + intros c i H. apply uses_snoc in H. destruct H as [H|(s & s' & H)]; [|discriminate]. apply mine_app. eapply oi_uses; eauto.
  - assert (Hc : forall i id, created i id (tr ++ [IEnd d]) -> created i id tr).
    { intros i id H. apply created_snoc in H. destruct H as [H|(d' & s & H)]; [exact H|discriminate]. }
    constructor; cbn [cn_world cn_tasks].
    + intros. apply created_app. eapply oi_manager; eauto.
    + intros. apply mine_app. eapply oi_conns; eauto.
    + intros c k Hk. destruct (Nat.eq_dec d c) as [<-|E].
      * rewrite (aget_del_same _ nateqb_spec) in Hk. discriminate.
      * rewrite tasks_del in Hk by exact E. eapply within_mono; [| |eapply oi_tasks; eauto]; cbv beta; intros; [apply came_app|apply mine_app]; auto.
    + intros i id H. eapply oi_heap; eauto.
    + intros i id id' H H'. eapply oi_once; eauto.
    + intros c i H. apply uses_snoc in H. destruct H as [H|(s & s' & H)]; [|discriminate]. apply mine_app. eapply oi_uses; eauto.
  - destruct (within_next _ _ _ _ _ _ (oi_tasks _ _ Hi _ _ Hd) Hn) as [Hw Ho].
    assert (Hnew : forall id i s, o = ONew id i s -> i = length (w_heap (cn_world x)) /\ came d id tr).
    { intros id i s ->. split; [|exact Ho]. destruct k0; cbn [Conc.next] in Hn; try discriminate.
      - destruct (nth_error _ _); [|discriminate]. destruct (f _ _). discriminate.
      - injection Hn. congruence. }
    assert (Hc : forall i id, created i id (tr ++ [IStep d o]) -> created i id tr \/ (exists s, o = ONew id i s)).
    { intros i id H. apply created_snoc in H. destruct H as [H|(d' & s & H)]; [auto|]. injection H as _ ->. eauto. }
    assert (Hfind : forall id i, o = OFind id (Some i) -> created i id tr /\ came d id tr).
    { intros id i ->. split; [|exact Ho]. destruct k0; cbn [Conc.next] in Hn; try discriminate.
      - destruct (nth_error _ _); [|discriminate]. destruct (f _ _). discriminate.
      - injection Hn as -> H _. eapply oi_manager; eauto. }
    constructor; cbn [cn_world cn_tasks].
    + intros id i H.
      assert (Hcase : aget bytes_eqb id (w_manager (cn_world x)) = Some i \/ (exists s, o = ONew id i s)).
      { destruct o; cbn [apply set_manager set_heap put_session set_broker set_store set_conns w_manager] in H; auto.
        - rewrite aget_adel in H by apply beqb_spec. destruct (bytes_eqb id id0); [discriminate|auto].
        - rewrite aget_aput in H by apply beqb_spec. destruct (bytes_eqb id id0) eqn:E; [|auto]. apply beqb_spec in E. subst id0. injection H as <-. eauto. }
      destruct Hcase as [H1|(s & ->)].
      * apply created_app. eapply oi_manager; eauto.
      * exists d, s. apply in_or_app. right. left. reflexivity.
    + intros c i H.
      assert (Hcase : aget Nat.eqb c (w_conns (cn_world x)) = Some i \/ (c = d /\ o = OAttach i)).
      { destruct (Nat.eq_dec d c) as [<-|E]; [|rewrite conns_apply in H by auto; auto].
        destruct o; cbn [apply set_manager set_heap put_session set_broker set_store set_conns w_conns] in H; auto.
        - rewrite (aget_put_same _ nateqb_spec) in H. injection H as ->. auto.
        - rewrite (aget_del_same _ nateqb_spec) in H. discriminate. }
      destruct Hcase as [H1|(-> & ->)]; apply mine_app; [eapply oi_conns; eauto|exact Ho].
    + intros c k Hk. destruct (Nat.eq_dec d c) as [<-|E].
      * rewrite (aget_put_same _ nateqb_spec) in Hk. injection Hk as <-. eapply within_mono; [| |exact Hw]; cbv beta.
        -- intros. apply came_app. assumption.
        -- intros i [H|[(id & ->)|(id & s & ->)]].
           ++ apply mine_app, H.
           ++ destruct (Hfind _ _ eq_refl). exists id. split; [apply created_app|apply came_app]; auto.
           ++ destruct (Hnew _ _ _ eq_refl). exists id. split; [|apply came_app; auto]. exists d, s. apply in_or_app. right. left. reflexivity.
      * rewrite tasks_other in Hk by exact E. eapply within_mono; [| |eapply oi_tasks; eauto]; cbv beta; intros; [apply came_app|apply mine_app]; auto.
    + intros i id H. rewrite heap_apply. destruct (Hc _ _ H) as [H1|(s & ->)].
      * apply (oi_heap _ _ Hi) in H1. lia.
      * destruct (Hnew _ _ _ eq_refl) as [-> _]. lia.
    + intros i id id' H H'. destruct (Hc _ _ H) as [H1|(s & E1)], (Hc _ _ H') as [H2|(s' & E2)].
      * eapply oi_once; eauto.
      * destruct (Hnew _ _ _ E2) as [-> _]. apply (oi_heap _ _ Hi) in H1. lia.
      * destruct (Hnew _ _ _ E1) as [-> _]. apply (oi_heap _ _ Hi) in H2. lia.
      * congruence.
    + intros c i H. apply uses_snoc in H. destruct H as [H|(s & s' & H)]; apply mine_app; [eapply oi_uses; eauto|].
      injection H as -> ->. exact Ho.
Qed.
Lemma own_new {st0} : own_inv [] (conf_on st0).
Proof.
  constructor; try discriminate.
  - intros i id (d & s & []).
  - intros i id id' (d & s & []).
  - intros c i (s & s' & []).
Qed.
Lemma own_runs cfg x tr x' : mruns cfg x tr x' -> forall pre, own_inv pre x -> own_inv (pre ++ tr) x'.
Proof.
  induction 1 as [x|x m x1 i tr x2 Hs Hr IH]; intros pre Hi; [rewrite app_nil_r; exact Hi|].
  change (i :: tr) with ([i] ++ tr). rewrite app_assoc. apply IH. eapply own_step; eauto.
Qed.
Lemma session_owner {st0} cfg tr x c i id : mruns cfg (conf_on st0) tr x -> uses c i tr -> created i id tr -> came c id tr.
Proof.
  intros Hr Hu Hc. pose proof (own_runs _ _ _ _ Hr [] own_new) as Hi. destruct (oi_uses _ _ Hi _ _ Hu) as (id' & H1 & H2).
  rewrite (oi_once _ _ Hi _ _ _ Hc H1). exact H2.
Qed.
