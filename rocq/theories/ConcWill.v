(** Facts about wills when handlers run concurrently. *)
From Verif Require Import Base Utf8 Codec SpecCodec Tac Maps CodecFacts Topic SpecTopic TopicFacts Property PacketProps Packets
  TopicTree TreeFacts Storage SpecStorage StorageFacts Broker SpecBroker BrokerFacts Auth Session Server SpecServer SessionFacts ServerFacts HandlerFacts
  HistoryFacts ProvenanceFacts WorldFacts DeliveryFacts Conc SpecConc ConcFacts ConcLocks ConcRoute ConcOwn ConcDeliver.

(** The step leaves the will of session [i] alone. *)
Definition keepw (i : nat) (o : obs) : Prop :=
  match o with OSess j a b => j = i -> se_will b = se_will a | _ => True end.
Definition open_still (o : obs) : Prop := match o with OOut (Closed _) => False | _ => True end.
Definition nosend (o : obs) : Prop := match o with OSend _ _ => False | _ => True end.

Lemma sess_at k w i a b k1 : next k w = Some (OSess i a b, k1) -> nth_error (w_heap w) i = Some a.
Proof.
  destruct k; cbn [Conc.next]; try discriminate. destruct (nth_error (w_heap w) i0) as [s|] eqn:E; [|discriminate].
  destruct (f s _) as [s' k']. intros H. injection H as -> -> -> ->. exact E.
Qed.
Lemma will_runs cfg x tr x' i s : mruns cfg x tr x' -> (forall d o, In (IStep d o) tr -> keepw i o) ->
  nth_error (w_heap (cn_world x)) i = Some s -> exists s', nth_error (w_heap (cn_world x')) i = Some s' /\ se_will s' = se_will s.
Proof.
  intros H. revert s. induction H as [x|x m x1 j tr x2 Hs Hr IH]; intros s Hk H1; [eauto|]. apply mstep_inv in Hs.
  assert (Hk' : forall d o, In (IStep d o) tr -> keepw i o) by (intros d o Hi; apply (Hk d); right; exact Hi).
  destruct Hs as [(e & -> & -> & He & Hi & ->)|[(d & -> & -> & Hd & ->)|(d & k0 & o & k1 & -> & -> & Hd & Hn & Hm & ->)]]; eauto.
  specialize (Hk d o (or_introl eq_refl)). destruct o as [| j0 a b| | | | | | | | | | | |];
     try (eapply IH; [exact Hk'|apply heap_other; [exact H1|discriminate]]).
  destruct (Nat.eq_dec j0 i) as [->|Ej].
  - destruct (IH b Hk') as (s' & E1 & E2); [cbn [cn_world]; eapply heap_sess; exact H1|]. exists s'. split; [exact E1|].
    rewrite E2, (Hk eq_refl). apply sess_at in Hn. congruence.
  - eapply IH; [exact Hk'|apply heap_other; [exact H1|intros ? ? [=]; congruence]].
Qed.

(** ** What the handlers of an open connection do to the will *)
Section Serving.
  Context (c i : nat) (silent : bool).
  (** A step that concerns neither the will nor the connection; if [silent], nothing is routed either. *)
  Definition calm (o : obs) : Prop := keepw i o /\ stays o /\ (silent = true -> nosend o) /\ open_still o.
  Definition wills (l : list obs) : Prop :=
    exists s l1, l = OSess i s (set_will None s) :: l1 /\ flat_map outs_of l1 = [Closed c] /\
      match se_will s with None => Forall nosend l1 | Some x => publishing (wl_topic x) (will_message x) l1 end.
  Definition shape (l : list obs) : Prop :=
    Forall calm l \/ (exists l0 l1, l = l0 ++ l1 /\ Forall calm l0 /\ wills l1)
    \/ (exists l0, l = l0 ++ [ODetach; OOut (Crashed c)] /\ Forall calm l0).
  Lemma shape_cons o l : calm o -> shape l -> shape (o :: l).
  Proof.
    intros Ho [H|[(l0 & l1 & -> & H0 & H1)|(l0 & -> & H0)]]; [left; constructor; auto|right; left|right; right].
    - exists (o :: l0), l1. split; [reflexivity|]. split; [constructor; auto|exact H1].
    - exists (o :: l0). split; [reflexivity|]. constructor; auto.
  Qed.
  Lemma shape_wills l : wills l -> shape l.
  Proof. intros H. right. left. exists [], l. repeat split; auto. Qed.
  Lemma wps_cons o k : calm o -> wps shape k -> wps (fun l => shape (o :: l)) k.
  Proof. intros Ho. apply wps_mono. intros l. apply shape_cons, Ho. Qed.
  Lemma wps_end_wills : wps wills (end_code c i).
  Proof.
    unfold end_code. intros s n. cbn [fst snd]. destruct (se_will s) as [x|] eqn:Ex.
    - apply wps_publish. intros n1 l0 H0. unfold client_id_of. intros s1 n2 s2 n3 m. cbn [fst snd wps].
      eexists s, _. split; [reflexivity|]. rewrite Ex. split.
      + assert (Hz : forall l, Forall (fun o => match o with OOut _ => False | _ => True end) l -> flat_map outs_of l = []).
        { induction 1 as [|o l H _ IH]; [reflexivity|]. simpl. rewrite IH. destruct o; try contradiction; reflexivity. }
        rewrite flat_map_app. cbn [flat_map]. rewrite flat_map_app. cbn [flat_map outs_of app].
        rewrite !Hz; [reflexivity| |eapply Forall_impl; [|exact H0]; intros []; auto].
        apply Forall_forall. intros o Ho. apply in_map_iff in Ho. destruct Ho as (p & <- & _). exact I.
      + exists l0, n1. eexists. split; [exact H0|]. split; [reflexivity|]. repeat constructor.
    - cbn [wps]. eexists s, _. split; [reflexivity|]. rewrite Ex. split; [reflexivity|]. repeat constructor.
  Qed.
  Lemma wps_end_shape : wps shape (end_code c i).
  Proof. eapply wps_mono; [|apply wps_end_wills]. exact shape_wills. Qed.

  Ltac calm := repeat split; try exact I; simpl; auto; try (intros _; reflexivity).
  Lemma wps_respond r : wps shape (respond c r).
  Proof. destruct r; cbn [respond wps]; left; repeat constructor. Qed.
  Lemma wps_client_id (k : bytes -> code) : (forall id, wps shape (k id)) -> wps shape (client_id_of i k).
  Proof. intros H s n. cbn [fst snd]. apply wps_cons; [calm|apply H]. Qed.
  Lemma wps_sub_one f k : wps shape k -> wps shape (subscribe_one i f k).
  Proof.
    intros H n m s n1. cbn [fst snd].
    apply (wps_mono _ shape); [|exact H]. intros l Hl. repeat (apply shape_cons; [calm|]). exact Hl.
  Qed.
  Lemma wps_subs fs : forall k, (forall rs, wps shape (k rs)) -> wps shape (subscribe_all i fs k).
  Proof.
    induction fs as [|[g o] fs IH]; intros k H; cbn [subscribe_all]; [apply H|]. destruct (validate_subscribe_filter g).
    - apply IH. intros rs. apply H.
    - apply wps_sub_one, IH. intros rs. apply H.
  Qed.
  Lemma wps_save k : wps shape k -> wps shape (save_subscriptions i k).
  Proof.
    intros H. apply wps_client_id. intros id s n m. cbn [fst snd]. apply (wps_mono _ shape); [|exact H].
    intros l Hl. repeat (apply shape_cons; [calm|]). exact Hl.
  Qed.
  Lemma wps_simple h after : (forall s, se_will (snd (h s)) = se_will s) -> (forall k, wps shape k -> wps shape (after k)) ->
    wps shape (simple_code c i h after).
  Proof.
    intros Hh Ha s n. specialize (Hh s). destruct (h s) as [r s']. cbn [fst snd] in *. apply wps_cons; [calm|].
    destruct r as [x| |]; [apply Ha, wps_respond|apply wps_end_shape|]. cbn [wps]. right. right. exists []. split; [reflexivity|constructor].
  Qed.
  Lemma wps_remove n k : wps shape k -> wps shape (remove_inflight i n k).
  Proof. intros H. apply wps_client_id. intros id m. apply wps_cons; [calm|exact H]. Qed.
  Lemma wps_pub t m k : silent = false -> wps shape k -> wps shape (publish t m k).
  Proof.
    intros Hs H. assert (Hr : wps shape (route t m k)).
    { unfold route. intros n. apply wps_cons; [calm|]. induction (targets t n) as [|p ps IH]; cbn [sends wps].
      - apply wps_cons; [calm|exact H].
      - apply wps_cons; [split; [exact I|split; [exact I|split; [congruence|exact I]]]|exact IH]. }
    unfold publish. destruct (mg_retain m); [destruct (mg_payload m) as [[|]|]|]; try exact Hr; intros m0; (apply wps_cons; [calm|exact Hr]).
  Qed.
  Lemma auth_will am a s : se_will (snd (handle_auth am a s)) = se_will s.
  Proof.
    unfold handle_auth. cbv zeta. repeat (match goal with |- context [match ?x with _ => _ end] => destruct x end; try reflexivity).
  Qed.
  Lemma wps_packet_shape cfg k : (forall d, k <> Disconnect d) ->
    (forall p, k = Publish p -> silent = true -> validate_publish_topic (pb_topic p) <> None) -> wps shape (packet_code cfg c i k).
  Proof.
    intros Hd Hp. destruct k; cbn [packet_code]; try apply wps_end_shape.
    - unfold publish_code. destruct (validate_publish_topic (pb_topic b)) eqn:Ev; [apply wps_end_shape|].
      assert (Hs : silent = false) by (destruct silent; auto; exfalso; apply (Hp b eq_refl eq_refl), Ev).
      destruct (pb_qos b); [|destruct (pb_packet_id b)|destruct (pb_packet_id b)|]; try (apply wps_pub; [exact Hs|]; try apply wps_respond; apply wps_end_shape).
      intros s n0. cbn [fst snd]. apply wps_cons; [calm|]. apply wps_pub; [exact Hs|apply wps_respond].
    - apply wps_simple; [reflexivity|apply wps_remove].
    - apply wps_simple; [reflexivity|auto].
    - apply wps_simple; [reflexivity|auto].
    - apply wps_simple; [reflexivity|apply wps_remove].
    - unfold subscribe_code. cbn [wps]. intros s0 n. cbn [fst snd]. apply (wps_mono _ shape).
      { intros l Hl. repeat (apply shape_cons; [calm|]). exact Hl. }
      apply wps_subs. intros rs. cbn [wps]. apply wps_cons; [calm|]. apply wps_save. cbn [wps]. left. repeat constructor.
    - unfold unsubscribe_code. intros s0 n. destruct (unsubscribe_loop _ _) as [rs subs]. cbn [fst snd]. apply wps_cons; [calm|].
      apply wps_save. cbn [wps]. left. repeat constructor.
    - apply (wps_respond (Some PingResp)).
    - exfalso. apply (Hd d eq_refl).
    - apply wps_simple; [apply auth_will|auto].
  Qed.
  Lemma wps_out_shape f : wps shape (out_code c i f).
  Proof.
    unfold out_code. intros s n. destruct (process_outgoing f s _) as [[r s']|] eqn:E.
    - assert (Hw : se_will s' = se_will s).
      { unfold process_outgoing in E. destruct (aget bytes_eqb f (se_subs s)); [|discriminate]. destruct (stream_next _ _) as [[m st]|]; [|discriminate].
        destruct (mg_packet_id m); [destruct (mg_qos m)|]; injection E as _ <-; reflexivity. }
      destruct r as [p| |]; cbn [fst snd].
      + apply wps_cons; [calm|]. assert (He : wps shape (Emit (Sent c (Publish p)) Finish)) by (cbn [wps]; left; repeat constructor).
        destruct (pb_packet_id p); [destruct (pb_qos p)|]; try exact He.
        * apply wps_client_id. intros id m. apply wps_cons; [calm|exact He].
        * apply wps_client_id. intros id m. apply wps_cons; [calm|exact He].
      + cbn [wps]. right. right. exists [OSess i s s']. split; [reflexivity|]. constructor; [calm|constructor].
      + cbn [wps]. right. right. exists [OSess i s s']. split; [reflexivity|]. constructor; [calm|constructor].
    - cbn [fst snd wps]. left. constructor; [calm|constructor].
  Qed.
  Lemma wps_handler_shape cfg e : event_of c e = true -> (forall d, e <> EPacket c (Disconnect d)) ->
    (forall p, e = EPacket c (Publish p) -> silent = true -> validate_publish_topic (pb_topic p) <> None) ->
    wps shape (handler cfg (Some i) e).
  Proof.
    intros Hc Hd Hp. destruct e as [d first u a|d k|d f|d|d|]; cbn [event_of] in Hc; try discriminate; apply Nat.eqb_eq in Hc; subst d; cbn [handler].
    - destruct first as [[]|]; left; constructor.
    - apply wps_packet_shape; [intros d E; apply (Hd d); congruence|]. intros p ->. auto.
    - apply wps_out_shape.
    - apply wps_end_shape.
    - right. right. exists []. split; [reflexivity|constructor].
  Qed.
End Serving.

(** ** What CONNECT does *)
Definition writes (i : nat) (W : option will) (o : obs) : Prop :=
  match o with OSess j _ s | ONew _ j s => j = i /\ se_will s = W | _ => False end.
Definition enters (i : nat) (W : option will) (l : list obs) : Prop :=
  exists l1 o l2, l = l1 ++ o :: l2 ++ [OAttach i] /\ writes i W o /\ Forall (keepw i) l2.
(** Steps that concern neither the will of session [i] nor stored wills. *)
Definition willless (i : nat) (o : obs) : Prop :=
  keepw i o /\ match o with OStore (StoreWill _ _) _ | OStore (DeleteWill _) _ => False | _ => True end.
Lemma willless_keeps i l : Forall (willless i) l -> Forall (keepw i) l.
Proof. apply Forall_impl. intros o [H _]. exact H. Qed.
Lemma wps_restore c i subs infl : forall (Q : list obs -> Prop), (forall l, Forall (willless i) l -> Q (l ++ [OAttach i])) -> wps Q (restore_code c i subs None infl).
Proof.
  assert (He : forall (Q : list obs -> Prop), (forall l, Forall (willless i) l -> Q (l ++ [OAttach i])) ->
    wps Q (emits (map (fun x => Sent c (Publish (retry_publish x))) infl) (Attach i Finish))).
  { induction infl as [|x xs IH]; intros Q HQ; cbn [map emits wps]; [apply (HQ []); constructor|].
    apply IH. intros l Hl. apply (HQ (_ :: l)). constructor; [split; exact I|exact Hl]. }
  intros Q HQ. unfold restore_code. destruct subs as [|f fs]; [apply He, HQ|]. cbn [wps].
  assert (Hr : forall gs (Q : list obs -> Prop), (forall l, Forall (willless i) l -> Q (l ++ [OAttach i])) ->
    wps Q (restore_all i gs (Conc.Release (LSession i) (emits (map (fun x => Sent c (Publish (retry_publish x))) infl) (Attach i Finish))))).
  { induction gs as [|g gs IH]; intros R HR; cbn [restore_all].
    - cbn [wps]. apply He. intros l Hl. apply (HR (_ :: l)). constructor; [split; exact I|exact Hl].
    - unfold subscribe_one. intros n m s n1. cbn [fst snd]. apply IH. intros l Hl.
      match goal with |- R (?a :: ?b :: ?d :: _) => apply (HR (a :: b :: d :: l)) end. repeat (constructor; [split; cbn; auto; exact I|]). exact Hl. }
  apply Hr. intros l Hl. apply (HQ (_ :: l)). constructor; [split; exact I|exact Hl].
Qed.
(** A stored will was found. *)
Definition found_will (l : list obs) : Prop := exists id x, In (OStore (GetWill id) (RWill (Some x))) l.
(** What CONNECT does ends in one of the steps [Q] speaks of, if [Q] is the property of everything that [begin_code] does. *)
Lemma wps_enter cfg c k u (Q : list obs -> Prop) : authenticated cfg k = true ->
  (forall l0 i o r subs infl, writes i (will_of_connect k) o -> wps (fun l => Q (l0 ++ o :: l)) (begin_code c i u true r subs None infl)) ->
  (cf_clean_start (c_flags k) = false -> forall l, found_will l -> Q l) -> wps Q (connect_code cfg c k u true).
Proof.
  intros Ha Hb Hf. unfold connect_code. rewrite Ha. cbn [negb wps].
  assert (Hg : forall l0 r subs infl, wps (fun l => Q (l0 ++ l)) (enter_code k (fun i => begin_code c i u true r subs None infl))).
  { intros l0 r subs infl. unfold enter_code. intros [i|]; cbn [wps].
    - intros s n. cbn [fst snd]. eapply wps_mono; [|apply (Hb (l0 ++ [OFind (cl_client_id (c_payload k)) (Some i)]) i (OSess i s (set_connect_packet k s)) r subs infl); split; reflexivity].
      cbv beta. intros l. rewrite <- app_assoc. auto.
    - intros i. eapply wps_mono; [|apply (Hb (l0 ++ [OFind (cl_client_id (c_payload k)) None]) i (ONew (cl_client_id (c_payload k)) i (session_new k)) r subs infl); split; reflexivity].
      cbv beta. intros l. rewrite <- app_assoc. auto. }
  destruct (cf_clean_start (c_flags k)) eqn:Ec.
  - cbn [wps]. intros m1 m2. exact (Hg [_; _; _; _] _ _ _).
  - cbn [wps]. intros [i|]; [exact (Hg [_; _] _ _ _)|]. cbn [wps]. intros m1. cbn [mem_step fst].
    destruct (mem_load_session _ m1) as [st|]; [|exact (Hg [_; _; _] _ _ _)]. cbn [wps]. intros m2 m3. cbn [mem_step fst].
    destruct (mem_get_will _ m2) as [x|] eqn:Ex; [|exact (Hg [_; _; _; _; _] _ _ _)].
    eapply wps_mono; [|apply wps_true]. cbv beta. intros l _. apply Hf; [reflexivity|]. exists (cl_client_id (c_payload k)), x. cbn. auto 10.
Qed.
Lemma wps_connect cfg c k u : authenticated cfg k = true ->
  wps (fun l => (exists i, enters i (will_of_connect k) l) \/ (cf_clean_start (c_flags k) = false /\ found_will l)) (connect_code cfg c k u true).
Proof.
  intros Ha. apply wps_enter; [exact Ha| |auto]. intros l0 i o r subs infl Ho. unfold begin_code. intros s n.
  pose proof (begin_will u r s) as Hw. destruct (begin u r s) as [ack s']. cbn [fst snd] in *. cbn [wps]. intros s1 n1 m3 s2 n2. cbn [fst snd].
  destruct (se_will s2) as [x|]; cbn [wps].
  - intros m4. apply wps_restore. intros l Hl. left. exists i. eexists l0, o, (_ :: _ :: _ :: _ :: _ :: _ :: _ :: l). split; [reflexivity|]. split; [exact Ho|].
    repeat (constructor; [cbn; auto|]). apply willless_keeps, Hl.
  - apply wps_restore. intros l Hl. left. exists i. eexists l0, o, (_ :: _ :: _ :: _ :: _ :: _ :: l). split; [reflexivity|]. split; [exact Ho|].
    repeat (constructor; [cbn; auto|]). apply willless_keeps, Hl.
Qed.
(** No stored will was found by connection [c]. *)
Definition unfound (c : nat) (tr : list item) : Prop := forall id x, ~ In (IStep c (OStore (GetWill id) (RWill (Some x)))) tr.

(** ** From the CONNECT to the end of the connection *)
Lemma classic_disconnect e c : (exists q, e = EPacket c (Disconnect q)) \/ forall q, e <> EPacket c (Disconnect q).
Proof.
  destruct e as [|d k| | | |]; try (right; discriminate). destruct k; try (right; discriminate).
  destruct (Nat.eq_dec d c) as [->|H]; [left; eauto|right; congruence].
Qed.
Definition same_will_dec (a b : option will) : {a = b} + {a <> b}.
Proof. repeat decide equality. Defined.
Lemma keep_dec i o : (keepw i o /\ stays o) \/ ~ (keepw i o /\ stays o).
Proof.
  destruct o as [| j a b| | | | | | | | | | | |]; simpl; try tauto. destruct (Nat.eq_dec j i) as [->|H]; [|left; split; [congruence|exact I]].
  destruct (same_will_dec (se_will b) (se_will a)) as [E|E]; [left; auto|right; intros [H _]; auto].
Qed.
Definition alive (os : list output) (c : nat) : Prop := ~ In (Closed c) os /\ ~ In (Crashed c) os.
(** Connection [c] is served by session [i], whose will is [W], or is being closed. *)
Definition serving (c i : nat) (W : option will) (x : conf) : Prop :=
  let closes l := In (Closed c) (flat_map outs_of l) \/ In (Crashed c) (flat_map outs_of l) in
  match aget Nat.eqb c (cn_tasks x) with
  | None => aget Nat.eqb c (w_conns (cn_world x)) = Some i /\ exists s, nth_error (w_heap (cn_world x)) i = Some s /\ se_will s = W
  | Some k => wps closes k \/
     (aget Nat.eqb c (w_conns (cn_world x)) = Some i /\ (exists s, nth_error (w_heap (cn_world x)) i = Some s /\ se_will s = W) /\
      wps (fun l => Forall (fun o => keepw i o /\ stays o) l \/ closes l) k)
  end.
Lemma wps_disconnect c i : wps (fun l => In (Closed c) (flat_map outs_of l)) (disconnect_code c i).
Proof.
  unfold disconnect_code, client_id_of. intros s n s1 n1 m. cbn [fst snd]. eapply wps_mono; [|apply wps_end_wills].
  intros l (s2 & l1 & -> & H & _). cbn [flat_map outs_of app]. rewrite H. left. reflexivity.
Qed.
Lemma serving_step cfg c i W x m x1 j :
  mstep cfg x m = Some (x1, j) -> serving c i W x ->
  (forall d o, j = IStep d o -> d <> c -> forall s s', o <> OSess i s s') ->
  alive (outputs_of c [j]) c -> serving c i W x1.
Proof.
  intros Hs Hv Ho Hal. apply mstep_inv in Hs.
  destruct Hs as [(e & -> & -> & He & Hi & ->)|[(d & -> & -> & Hd & ->)|(d & k0 & o & k1 & -> & -> & Hd & Hn & Hm & ->)]].
  - unfold serving in *. cbn [cn_tasks cn_world]. destruct (Nat.eq_dec (event_conn e) c) as [E|E].
    + rewrite E in *. rewrite Hi in Hv. rewrite (aget_put_same _ nateqb_spec). destruct Hv as [Hc Hw]. rewrite Hc.
      destruct (classic_disconnect e c) as [[q ->]|Hd].
      * left. cbn [handler packet_code]. eapply wps_mono; [|apply wps_disconnect]. auto.
      * right. split; [reflexivity|]. split; [exact Hw|]. eapply wps_mono; [|apply (wps_handler_shape c i false)].
        -- intros l [H|[(l0 & l1 & -> & H0 & (s & l2 & -> & H1 & _))|(l0 & -> & H0)]].
           ++ left. eapply Forall_impl; [|exact H]. intros o (H1 & H2 & _). auto.
           ++ right. left. rewrite flat_map_app. apply in_or_app. right. simpl. rewrite H1. left. reflexivity.
           ++ right. right. rewrite flat_map_app. apply in_or_app. right. left. reflexivity.
        -- rewrite event_of_conn by exact He. apply Nat.eqb_eq, E.
        -- exact Hd.
        -- discriminate.
    + rewrite tasks_other by exact E. exact Hv.
  - unfold serving in *. cbn [cn_tasks cn_world]. destruct (Nat.eq_dec d c) as [->|E].
    + rewrite (aget_del_same _ nateqb_spec). rewrite Hd in Hv. destruct Hv as [Hv|(Hc & Hw & _)]; [|auto]. destruct Hv as [[]|[]].
    + rewrite tasks_del by exact E. exact Hv.
  - unfold serving in *. cbn [cn_tasks cn_world]. destruct (Nat.eq_dec d c) as [->|E].
    + rewrite (aget_put_same _ nateqb_spec). rewrite Hd in Hv. rewrite outputs_steps in Hal. cbn [steps_of flat_map app] in Hal. rewrite Nat.eqb_refl in Hal. simpl in Hal.
      rewrite app_nil_r in Hal. destruct Hal as [Ha1 Ha2]. destruct Hv as [Hv|(Hc & (s & Hs & Hw) & Hv)].
      * left. eapply wps_next in Hv; [|exact Hn]. eapply wps_mono; [|exact Hv]. cbv beta. intros l. cbn [flat_map]. rewrite !in_app_iff. tauto.
      * eapply wps_next in Hv; [|exact Hn]. destruct (keep_dec i o) as [Hk|Hk].
        -- right. split; [|split].
           ++ rewrite <- Hc. destruct Hk as [_ Hst]. destruct o; try reflexivity; contradiction.
           ++ destruct o as [| j0 a b| | | | | | | | | | | |]; try (exists s; split; [apply heap_other; [exact Hs|discriminate]|exact Hw]).
              destruct (Nat.eq_dec j0 i) as [->|Ej].
              ** exists b. split; [eapply heap_sess; exact Hs|]. apply sess_at in Hn. rewrite (proj1 Hk eq_refl). congruence.
              ** exists s. split; [apply heap_other; [exact Hs|intros ? ? [=]; congruence]|exact Hw].
           ++ eapply wps_mono; [|exact Hv]. cbv beta. intros l [H|H]; [left; inversion H; assumption|].
              cbn [flat_map] in H. rewrite !in_app_iff in H. right. tauto.
        -- left. eapply wps_mono; [|exact Hv]. cbv beta. intros l [H|H]; [inversion H; contradiction|].
           cbn [flat_map] in H. rewrite !in_app_iff in H. tauto.
    + rewrite tasks_other by exact E. assert (Hh : forall s, nth_error (w_heap (cn_world x)) i = Some s -> nth_error (w_heap (apply d o (cn_world x))) i = Some s).
      { intros s Hs. apply heap_other; [exact Hs|]. apply (Ho d o eq_refl E). }
      rewrite conns_apply by auto.
      destruct (aget Nat.eqb c (cn_tasks x)); [destruct Hv as [Hv|(Hc & (s & Hs & Hw) & Hv)]; [left; exact Hv|right; repeat split; eauto]|].
      destruct Hv as (Hc & s & Hs & Hw). split; eauto.
Qed.
Lemma serving_runs cfg c i W x tr x' : mruns cfg x tr x' -> serving c i W x ->
  (forall d s s', In (IStep d (OSess i s s')) tr -> d = c) -> alive (outputs_of c tr) c -> serving c i W x'.
Proof.
  induction 1 as [x|x m x1 j tr x2 Hs Hr IH]; intros Hv Ho Hal; [exact Hv|].
  change (j :: tr) with ([j] ++ tr) in Hal. rewrite outputs_app in Hal.
  assert (Ha1 : alive (outputs_of c [j]) c) by (destruct Hal as [H1 H2]; split; intros H; [apply H1|apply H2]; apply in_or_app; auto).
  assert (Ha2 : alive (outputs_of c tr) c) by (destruct Hal as [H1 H2]; split; intros H; [apply H1|apply H2]; apply in_or_app; auto).
  apply IH; [|intros d s s' H; eapply Ho; right; exact H|exact Ha2].
  eapply serving_step; [exact Hs|exact Hv| |exact Ha1]. intros d o -> Hd s s' ->. apply Hd. eapply Ho. left. reflexivity.
Qed.

Lemma connected {st0} cfg c k u pre mid post tr x : mruns cfg (conf_on st0) tr x -> Forall texts (events_of c tr) -> lone c tr ->
  handled c (EFirst c (Some (Connect k)) u true) pre mid post tr -> ~ opened c pre -> accepts cfg k -> cf_clean_start (c_flags k) = true \/ unfound c mid ->
  exists i y, mruns cfg (conf_on st0) (pre ++ IStart (EFirst c (Some (Connect k)) u true) :: mid ++ [IEnd c]) y /\ mruns cfg y post x /\
    serving c i (will_of_connect k) y /\ idle c y /\ (forall d s s', In (IStep d (OSess i s s')) tr -> d = c).
Proof.
  intros Hr Ht Hl Hh Ho Hacc Hcl. pose proof Hh as (Htr & _ & Hend). rewrite Htr in Hr. pose proof Hr as Hr0.
  apply start_at in Hr. destruct Hr as (y0 & Hy0 & Hi0 & _ & H2). cbn [event_conn] in *.
  assert (Hc : aget Nat.eqb c (w_conns (cn_world y0)) = None).
  { destruct (aget Nat.eqb c (w_conns (cn_world y0))) eqn:E; [|reflexivity]. exfalso. apply Ho.
    apply (open_conns cfg c pre y0 Hy0); [rewrite Htr in Ht; eapply event_texts; eauto|exact Hi0|eauto]. }
  rewrite Hc in H2. cbn [handler] in H2. apply authenticated_iff in Hacc.
  set (x1 := Mk_conf _ _ _ _) in H2.
  assert (Hx1 : aget Nat.eqb c (cn_tasks x1) = Some (connect_code cfg c k u true)) by apply (aget_put_same _ nateqb_spec).
  destruct (run_task _ _ _ _ H2 c _ _ (fun _ => True) Hx1 (wps_connect cfg c k u Hacc) (always_true _)) as [_ Hs].
  destruct (Hs mid post eq_refl Hend) as [(i & l1 & o & l2 & Hl1 & Hwr & Hkeep)|(Hcf & id0 & x0 & Hin0)];
    [|destruct Hcl as [Hcl|Hcl]; [congruence|destruct (Hcl id0 x0); apply steps_in, Hin0]].
  destruct (steps_split _ _ _ _ _ Hl1) as (mid1 & mid2 & Hmid & Ha & Hb).
  destruct (steps_split _ _ _ _ _ Hb) as (m3 & m4 & Hm2 & Hc3 & Hd4).
  assert (H3 : exists z, mruns cfg x1 mid z /\ mruns cfg z (IEnd c :: post) x) by (apply mruns_app in H2; destruct H2 as (z & A & B); eauto).
  destruct H3 as (z & Hz & Hzx). inversion Hzx as [|? m y ? ? ? Hse Hyx]; subst i0 tr0 x2.
  assert (Hpz : mruns cfg (conf_on st0) (pre ++ IStart (EFirst c (Some (Connect k)) u true) :: mid) z).
  { apply mruns_app. exists y0. split; [exact Hy0|]. apply (mr_cons _ _ (MStart (EFirst c (Some (Connect k)) u true)) x1); [|exact Hz].
    simpl. unfold idle in Hi0. rewrite Hi0, Hc. reflexivity. }
  assert (Hyw : cn_world y = cn_world z /\ aget Nat.eqb c (cn_tasks y) = None).
  { apply mstep_inv in Hse. destruct Hse as [(e & -> & E & _)|[(d & -> & E & Hd & ->)|(d & k0 & o' & k2 & -> & E & _)]]; try discriminate.
    injection E as <-. split; [reflexivity|]. apply (aget_del_same _ nateqb_spec). }
  destruct Hyw as [Hyw Hyt].
  pose proof Hz as Hz'. rewrite Hmid in Hz'. destruct (step_at _ _ _ _ _ _ _ Hz') as (v & kv & kv1 & Hv & Hkv & Hnv & _ & Hv2).
  (* the connection is attached *)
  pose proof Hv2 as Hv3. rewrite Hm2 in Hv3. destruct (step_at _ _ _ _ _ _ _ Hv3) as (t & kt & kt1 & _ & _ & _ & _ & Ht2).
  assert (Hcz : aget Nat.eqb c (w_conns (cn_world z)) = Some i).
  { rewrite (conns_runs _ _ _ _ c Ht2); [|rewrite Hd4; constructor]. cbn [cn_world apply]. apply (aget_put_same _ nateqb_spec). }
  assert (Hmine : mine c tr i).
  { pose proof (own_runs _ _ _ _ Hpz [] own_new) as Hi. cbn [app] in Hi. rewrite Htr.
    replace (pre ++ IStart (EFirst c (Some (Connect k)) u true) :: mid ++ IEnd c :: post)
      with ((pre ++ IStart (EFirst c (Some (Connect k)) u true) :: mid) ++ IEnd c :: post) by (rewrite <- app_assoc; reflexivity).
    apply mine_app. exact (oi_conns _ _ Hi _ _ Hcz). }
  assert (Honly : forall d s s', In (IStep d (OSess i s s')) tr -> d = c).
  { intros d s s' Hu. apply (@owner_only st0 cfg tr x c i); auto; [rewrite Htr; exact Hr0|]. exists s, s'. exact Hu. }
  exists i, y. split; [|split; [exact Hyx|split; [|split; [exact Hyt|exact Honly]]]].
  - rewrite app_comm_cons, app_assoc. apply mruns_app. exists z. split; [exact Hpz|]. econstructor; [exact Hse|constructor].
  - unfold serving. rewrite Hyt, Hyw. split; [exact Hcz|].
    assert (Hv1 : exists s, nth_error (w_heap (apply c o (cn_world v))) i = Some s /\ se_will s = will_of_connect k).
    { destruct o as [| j a b| | | | | | | |id j s| | | |]; try contradiction; destruct Hwr as [-> Hwr].
      - exists b. split; [eapply heap_sess, sess_at, Hnv|exact Hwr].
      - exists s. split; [|exact Hwr]. destruct kv; cbn [Conc.next] in Hnv; try discriminate; [destruct (nth_error _ _); [|discriminate]; destruct (f _ _); discriminate|].
        injection Hnv as _ Q2 Q3 _. rewrite <- Q2. simpl. rewrite nth_error_app2 by lia. rewrite Nat.sub_diag. reflexivity. }
    destruct Hv1 as (s & E1 & E2).
    destruct (will_runs _ _ _ _ i s Hv2) as (sz & E3 & E4).
    + intros d o' Hio. destruct (Nat.eq_dec d c) as [->|Hdc].
      * assert (Hin : In o' (l2 ++ [OAttach i])) by (rewrite <- Hb; apply steps_in; exact Hio).
        apply in_app_iff in Hin. destruct Hin as [Hin|[<-|[]]]; [|exact I]. rewrite Forall_forall in Hkeep. apply Hkeep, Hin.
      * destruct o'; try exact I. intros ->. exfalso. apply Hdc. eapply Honly. rewrite Htr, Hmid.
        apply in_or_app. right. right. apply in_or_app. left. apply in_or_app. right. right. exact Hio.
    + exact E1.
    + exists sz. split; [exact E3|congruence].
Qed.

(** ** The end *)
(** The will that is found when the connection ends is the one that was there before. *)
Lemma will_taken_at cfg c e mid post tr x i W z :
  mruns cfg z (IStart e :: mid ++ IEnd c :: post) x -> idle c z -> aget Nat.eqb c (w_conns (cn_world z)) = Some i ->
  (exists s, nth_error (w_heap (cn_world z)) i = Some s /\ se_will s = W) ->
  event_of c e = true -> ~ In (IEnd c) mid -> incl (mid ++ IEnd c :: post) tr ->
  (forall d s s', In (IStep d (OSess i s s')) tr -> d = c) ->
  (forall d, e <> EPacket c (Disconnect d)) ->
  (forall p, e = EPacket c (Publish p) -> validate_publish_topic (pb_topic p) <> None) ->
  exists l0 l1, steps_of c mid = l0 ++ l1 /\ Forall nosend l0 /\
    (Forall nosend l1 \/ exists x, W = Some x /\ publishing (wl_topic x) (will_message x) l1) /\
    (forall x, W = Some x -> In (Closed c) (outputs_of c mid) -> publishing (wl_topic x) (will_message x) l1) /\
    (In (Closed c) (outputs_of c mid) \/ Forall nosend l1).
Proof.
  intros Hr Hi Hc (s0 & Hs0 & Hw0) He Hend Hincl Honly Hd Hp.
  assert (H2 : mruns cfg (Mk_conf (cn_world z) (aput Nat.eqb c (handler cfg (Some i) e) (cn_tasks z)) (cn_locks z) (cn_readers z)) (mid ++ IEnd c :: post) x).
  { change (IStart e :: mid ++ IEnd c :: post) with ([] ++ IStart e :: mid ++ IEnd c :: post) in Hr. apply start_at in Hr.
    destruct Hr as (y & Hy & _ & Hne & H2). inversion Hy; subst y. rewrite event_of_conn in He by exact Hne. apply Nat.eqb_eq in He. rewrite He, Hc in H2. exact H2. }
  set (x1 := Mk_conf _ _ _ _) in H2.
  assert (Hx1 : aget Nat.eqb c (cn_tasks x1) = Some (handler cfg (Some i) e)) by apply (aget_put_same _ nateqb_spec).
  assert (Hsh : wps (shape c i true) (handler cfg (Some i) e)) by (apply wps_handler_shape; auto).
  destruct (run_task _ _ _ _ H2 c _ _ (fun _ => True) Hx1 Hsh (always_true _)) as [_ Hs]. specialize (Hs mid post eq_refl Hend).
  assert (Hno : forall l, Forall (calm i true) l -> Forall nosend l).
  { intros l. apply Forall_impl. intros o (_ & _ & H). apply H. reflexivity. }
  destruct Hs as [Hs|[(l0 & l1 & Hl & H0 & (s & l2 & -> & Hout & Hwl))|(l0 & Hl & H0)]].
  - exists (steps_of c mid), []. rewrite app_nil_r. split; [reflexivity|]. split; [apply Hno, Hs|]. split; [left; constructor|]. split; [|right; constructor].
    intros q _ Hin. exfalso. rewrite outputs_steps in Hin. apply in_flat_map in Hin. destruct Hin as (o & Ho & Hq).
    destruct o; try contradiction. destruct Hq as [->|[]]. rewrite Forall_forall in Hs. apply Hs in Ho. apply Ho.
  - exists (l0 ++ [OSess i s (set_will None s)]), l2. split; [rewrite <- app_assoc; exact Hl|].
    split; [apply Forall_app; split; [apply Hno, H0|repeat constructor]|].
    destruct (steps_split _ _ _ _ _ Hl) as (mid1 & mid2 & Hmid & Ha & Hb).
    assert (Hw : se_will s = W).
    { rewrite Hmid, <- app_assoc in H2. simpl in H2. destruct (step_at _ _ _ _ _ _ _ H2) as (v & kv & kv1 & Hv & _ & Hnv & _). apply sess_at in Hnv.
      destruct (will_runs _ _ _ _ i s0 Hv) as (s' & E1 & E2); [|exact Hs0|congruence].
      intros d o Hio. destruct (Nat.eq_dec d c) as [->|Hdc].
      - rewrite Forall_forall in H0. apply H0. rewrite <- Ha. apply steps_in, Hio.
      - destruct o; try exact I. intros ->. exfalso. apply Hdc. eapply Honly, Hincl. rewrite Hmid.
        apply in_or_app. left. apply in_or_app. left. exact Hio. }
    assert (Hcl : In (Closed c) (outputs_of c mid)).
    { rewrite outputs_steps, Hl, flat_map_app. apply in_or_app. right. simpl. rewrite Hout. left. reflexivity. }
    rewrite <- Hw. destruct (se_will s) as [q|]; (split; [eauto|split; [|auto]]).
    + intros q' E _. injection E as <-. exact Hwl.
    + discriminate.
  - exists (steps_of c mid), []. rewrite app_nil_r. split; [reflexivity|].
    split; [rewrite Hl; apply Forall_app; split; [apply Hno, H0|repeat constructor]|]. split; [left; constructor|]. split; [|right; constructor].
    intros q _ Hin. exfalso. rewrite outputs_steps in Hin. apply in_flat_map in Hin. destruct Hin as (o & Ho & Hq).
    destruct o; try contradiction. destruct Hq as [->|[]]. rewrite Hl in Ho. apply in_app_iff in Ho.
    destruct Ho as [Ho|[Ho|[Ho|[]]]]; try discriminate. rewrite Forall_forall in H0. apply H0 in Ho. apply Ho.
Qed.
(** A message is sent once to the filters that match. *)
Lemma routed_once {st0} cfg c e pre mid post tr x l0 l1 t m f : mruns cfg (conf_on st0) tr x -> handled c e pre mid post tr ->
  steps_of c mid = l0 ++ l1 -> Forall nosend l0 -> publishing t m l1 -> topic_name t ->
  exists y mid1 mid2, mid = mid1 ++ mid2 /\ mruns cfg (conf_on st0) (pre ++ IStart e :: mid1) y /\
  routed_by c f mid = (if matches_dec f t then if is_some (node_at (levels f) (tree y)) then [m] else [] else []).
Proof.
  intros Hr (Htr & _ & _) Hl H0 (l2 & n & l3 & H2 & -> & H3) Ht. rewrite app_assoc in Hl.
  destruct (steps_split _ _ _ _ _ Hl) as (a & b & Hmid & Ha & Hb).
  assert (Hr1 : mruns cfg (conf_on st0) ((pre ++ IStart e :: a) ++ IStep c (OWalk t (targets t n)) :: b ++ IEnd c :: post) x).
  { rewrite Htr, Hmid in Hr. rewrite <- app_assoc. simpl. rewrite <- app_assoc in Hr. exact Hr. }
  destruct (walk_at _ _ _ _ _ _ _ _ Hr1) as (y & Hy & Hn). exists y, a, (IStep c (OWalk t (targets t n)) :: b).
  split; [exact Hmid|]. split; [exact Hy|]. unfold routed_by. rewrite Hl, flat_map_app. cbn [flat_map]. rewrite !flat_map_app. cbn [flat_map].
  rewrite (sent_by_none f l0 H0), (mutes_none f l2 H2), (sent_by_none f l3 H3). simpl. rewrite sent_by_sends, app_nil_r, Hn, (count_targets _ _ _ Ht).
  destruct (matches_dec f t); [|reflexivity]. destruct (node_at (levels f) (tree y)); reflexivity.
Qed.
(** After DISCONNECT there is no will left. *)
Lemma disconnect_silent {st0} cfg c d pre mid post tr x i : mruns cfg (conf_on st0) tr x -> handled c (EPacket c (Disconnect d)) pre mid post tr ->
  (forall y, mruns cfg (conf_on st0) pre y -> idle c y ->
     aget Nat.eqb c (w_conns (cn_world y)) = Some i /\ exists s, nth_error (w_heap (cn_world y)) i = Some s) ->
  (forall d s s', In (IStep d (OSess i s s')) tr -> d = c) -> Forall nosend (steps_of c mid).
Proof.
  intros Hr Hh Hstart Honly. destruct Hh as (Htr & He & Hend). pose proof Hr as Hr0. rewrite Htr in Hr. apply start_at in Hr.
  destruct Hr as (y & Hy & Hi & _ & H2). cbn [event_conn] in *. destruct (Hstart y Hy Hi) as [Hc (s0 & Hs0)]. rewrite Hc in H2. cbn [handler packet_code] in H2.
  set (x1 := Mk_conf _ _ _ _) in H2.
  assert (Hx1 : aget Nat.eqb c (cn_tasks x1) = Some (disconnect_code c i)) by apply (aget_put_same _ nateqb_spec).
  assert (Hsh : wps (fun l => exists s s1 m l1, l = OSess i s (set_will None s) :: OSess i s1 s1 :: OStore m RUnit :: l1 /\ wills c i l1) (disconnect_code c i)).
  { unfold disconnect_code, client_id_of. intros s n s1 n1 m. cbn [fst snd]. eapply wps_mono; [|apply wps_end_wills]. cbv beta. intros l Hl. exists s, s1. eexists _, l. split; [reflexivity|exact Hl]. }
  destruct (run_task _ _ _ _ H2 c _ _ (fun _ => True) Hx1 Hsh (always_true _)) as [_ Hs]. destruct (Hs mid post eq_refl Hend) as (s & s1 & m & l1 & Hl & (s2 & l2 & -> & _ & Hw)).
  (* the two accesses *)
  assert (Hl' : steps_of c mid = [] ++ OSess i s (set_will None s) :: [OSess i s1 s1; OStore m RUnit] ++ OSess i s2 (set_will None s2) :: l2) by exact Hl.
  destruct (steps_split _ _ _ _ _ Hl') as (m1 & m2 & Hm1 & Ha & Hb).
  destruct (steps_split _ _ _ _ _ Hb) as (m3 & m4 & Hm3 & Hc3 & Hd4).
  rewrite Hm1, <- app_assoc in H2. simpl in H2. destruct (step_at _ _ _ _ _ _ _ H2) as (v & kv & kv1 & Hv & _ & Hnv & _ & Hv2).
  rewrite Hm3, <- app_assoc in Hv2. simpl in Hv2. destruct (step_at _ _ _ _ _ _ _ Hv2) as (t & kt & kt1 & Ht & _ & Hnt & _).
  assert (Hw2 : se_will s2 = None).
  { apply sess_at in Hnv, Hnt. destruct (will_runs _ _ _ _ i (set_will None s) Ht) as (s' & E1 & E2).
    - intros d0 o Hio. destruct (Nat.eq_dec d0 c) as [->|Hdc].
      + assert (Hin : In o [OSess i s1 s1; OStore m RUnit]) by (rewrite <- Hc3; apply steps_in, Hio). destruct Hin as [<-|[<-|[]]]; simpl; auto.
      + destruct o; try exact I. intros ->. exfalso. apply Hdc. eapply Honly. rewrite Htr, Hm1, Hm3.
        apply in_or_app. right. right. apply in_or_app. left. apply in_or_app. right. right. apply in_or_app. left. exact Hio.
    - exact (heap_sess _ c s _ _ _ Hnv).
    - rewrite Hnt in E1. injection E1 as ->. exact E2. }
  rewrite Hw2 in Hw. rewrite Hl. repeat (constructor; [exact I|]). exact Hw.
Qed.
