(** A message that a client has acknowledged, while handlers interleave. *)
From Verif Require Import Base Utf8 Codec SpecCodec Tac CodecFacts Maps Topic SpecTopic TopicFacts Property PacketProps Packets TopicTree TreeFacts Storage SpecStorage StorageFacts
  Broker Auth Session SessionFacts Server SpecServer ServerFacts HandlerFacts OutputFacts Conc ConcFacts ConcLocks ConcRoute SpecConc ConcOwn ConcDeliver ConcProv SpecDurable ConcStore SpecLives ConcLives SpecUnsub ConcUnsub SpecAcked ProvenanceFacts.

(** ** What the handlers of a connection write *)
Section Shape.
  Context (c : nat) (E : output -> Prop) (R : bytes -> list inflight -> Prop).
  (** Puts no message in flight; what it emits is in [E] if what it is told to be in flight is in [R]. *)
  Fixpoint shape (k : code) : Prop :=
    match k with
    | Finish => True
    | Emit o k => E o /\ shape k
    | Sess _ g => forall s t, shape (snd (g s t))
    | Sub _ k => forall n, shape (k n)
    | Walk _ k => forall ps, shape (k ps)
    | Store o k => (forall z p x, o <> StoreInflight z p x) /\ forall r, (forall z l, o = GetAllInflight z -> r = RInflights l -> R z l) -> shape (k r)
    | Find _ k => forall r, shape (k r)
    | New _ _ k => forall j, shape (k j)
    | Send _ _ k | Leave k | Forget _ k | Attach _ k | Detach k | Acquire _ k | Conc.Release _ k => shape k
    end.
  (** The delivery of one message: it is put in flight, if it has to be, and then sent. *)
  Fixpoint outs (k : code) : Prop :=
    match k with
    | Finish => True
    | Emit _ k => k = Finish
    | Sess _ g => forall s t, outs (snd (g s t))
    | Store o k => exists z p x q, o = StoreInflight z p x /\ if_packet_id x = p /\ pb_packet_id q = Some p /\ forall r, k r = Emit (Sent c (Publish q)) Finish
    | Detach k => k = Emit (Crashed c) Finish
    | _ => False
    end.
  Context (HE : forall o, (forall q, o <> Sent c (Publish q)) -> E o) (cfg : config).
  Lemma sh_sends ps g k : shape k -> shape (sends ps g k).
  Proof. induction ps; simpl; auto. Qed.
  Lemma sh_store o k : (forall z p x, o <> StoreInflight z p x) -> (forall r, shape (k r)) -> shape (Store o k).
  Proof. intros H1 H2. split; [exact H1|]. auto. Qed.
  Lemma sh_publish t g k : shape k -> shape (publish t g k).
  Proof.
    intros H. assert (Hr : shape (route t g k)) by (simpl; intros ps; apply sh_sends, H).
    unfold publish. destruct (mg_retain g); [destruct (mg_payload g) as [[|]|]|]; try exact Hr; apply sh_store; try discriminate; auto.
  Qed.
  Lemma sh_id i k : (forall x, shape (k x)) -> shape (client_id_of i k).
  Proof. intros H. unfold client_id_of. cbn [shape fst snd]. auto. Qed.
  Lemma sh_done : shape (Detach (Emit (Closed c) Finish)).
  Proof. split; [apply HE; discriminate|exact I]. Qed.
  Lemma sh_end i : shape (end_code c i).
  Proof.
    unfold end_code. cbn [shape fst snd]. intros s n. destruct (se_will s) as [x|]; [|apply sh_done].
    apply sh_publish. apply sh_id. intros _. apply sh_id. intros x'. apply sh_store; [discriminate|]. intros _. apply sh_done.
  Qed.
  Lemma sh_respond r : (forall q, r <> Some (Publish q)) -> shape (respond c r).
  Proof. intros H. destruct r; [|exact I]. split; [|exact I]. apply HE. intros q E1. apply (H q). congruence. Qed.
  Lemma sh_one i g k : shape k -> shape (subscribe_one i g k).
  Proof. intros H. unfold subscribe_one. cbn [shape fst snd]. intros n. split; [discriminate|]. auto. Qed.
  Lemma sh_sub i fs : forall k, (forall rs, shape (k rs)) -> shape (subscribe_all i fs k).
  Proof. induction fs as [|[g o] fs IH]; intros k H; cbn [subscribe_all]; [apply H|]. destruct (validate_subscribe_filter g); [auto|]. apply sh_one. auto. Qed.
  Lemma sh_save i k : shape k -> shape (save_subscriptions i k).
  Proof. intros H. apply sh_id. intros x. cbn [shape fst snd]. intros s t. split; [discriminate|]. auto. Qed.
  Lemma sh_remove i n k : shape k -> shape (remove_inflight i n k).
  Proof. intros H. apply sh_id. intros x. apply sh_store; [discriminate|]. auto. Qed.
  Lemma sh_simple i h after : (forall s r q, fst (h s) = Ok r -> r <> Some (Publish q)) -> (forall k, shape k -> shape (after k)) -> shape (simple_code c i h after).
  Proof.
    intros Hq Ha. unfold simple_code. cbn [shape]. intros s n. specialize (Hq s). destruct (h s) as [[r| |] s1]; cbn [fst snd] in *;
      [apply Ha, sh_respond; intros q; apply Hq; reflexivity|apply sh_end|split; [apply HE; discriminate|exact I]].
  Qed.
  Lemma sh_packet i (k : packet) : shape (packet_code cfg c i k).
  Proof.
    destruct k as [k|k|p|a|a|a|a|p|k|p|k| | |x|a]; cbn [packet_code]; try apply sh_end; try (apply sh_simple; [cbn; congruence|auto using sh_remove]; fail).
    - unfold publish_code. destruct (validate_publish_topic _); [apply sh_end|].
      destruct (pb_qos p); [|destruct (pb_packet_id p) as [n|]|destruct (pb_packet_id p) as [n|]|]; try (apply sh_publish; first [apply sh_respond; discriminate|apply sh_end]).
      intros s n'. cbn [snd]. apply sh_publish, sh_respond. discriminate.
    - intros s n. cbn [fst snd]. apply sh_sub. intros rs. match goal with |- shape (Conc.Release _ ?z) => change (shape z) end. apply sh_save. split; [apply HE; discriminate|exact I].
    - intros s n. destruct (unsubscribe_loop (us_payload p) (se_subs s)) as [rs subs]. cbn [snd]. apply sh_save. split; [apply HE; discriminate|exact I].
    - apply sh_respond. discriminate.
    - intros s n. cbn [snd]. apply sh_id. intros y. apply sh_store; [discriminate|]. intros. apply sh_end.
    - apply sh_simple; [|auto]. intros s r q E1 Hq. subst r. revert E1. unfold handle_auth. destruct (sv_manager cfg); [|discriminate]. repeat case_match; discriminate.
  Qed.
  Lemma sh_begin i u a r subs wl infl : (forall x, In x infl -> E (Sent c (Publish (retry_publish x)))) -> shape (begin_code c i u a r subs wl infl).
  Proof.
    intros Hi. unfold begin_code. cbn [shape]. intros s n. assert (Hq : forall q, fst (begin u r s) <> Publish q) by (unfold begin; repeat case_match; intros q; discriminate).
    destruct (begin u r s) as [ack t]. cbn [fst snd] in *. destruct a; [|split; [apply HE; discriminate|exact I]]. cbn [shape]. split; [apply HE; intros q E1; apply (Hq q); congruence|].
    apply sh_id. intros x. apply sh_store; [discriminate|]. intros _ s1 t1. cbn [snd]. cbv zeta. assert (Hr : shape (restore_code c i subs wl infl)).
    { unfold restore_code. cbv zeta. set (rest := emits _ _).
      assert (Hr : shape rest) by (unfold rest; clear rest; induction infl; cbn; [exact I|]; split; [apply Hi; left; reflexivity|]; apply IHinfl; intros y Hy; apply Hi; right; exact Hy).
      set (wills := match wl with Some x => _ | None => _ end). assert (Hw : shape wills) by (unfold wills; destruct wl; [|exact Hr]; intros s' n'; exact Hr).
      destruct subs as [|g fs]; [exact Hw|]. change (shape (restore_all i (g :: fs) (Conc.Release (LSession i) wills))).
      induction (g :: fs) as [|h l IH]; cbn [restore_all]; [exact Hw|]. apply sh_one, IH. }
    destruct (se_will s1); [apply sh_store; [discriminate|]; auto|exact Hr].
  Qed.
  Lemma sh_connect k u a : (forall l x, R (presented k) l -> In x l -> E (Sent c (Publish (retry_publish x)))) -> shape (connect_code cfg c k u a).
  Proof.
    intros HR. unfold connect_code. destruct (negb _); [split; [apply HE; discriminate|split; [apply HE; discriminate|exact I]]|]. cbv zeta.
    assert (Hg : forall r subs wl infl, (forall x, In x infl -> E (Sent c (Publish (retry_publish x)))) -> shape (enter_code k (fun i => begin_code c i u a r subs wl infl))).
    { intros r subs wl infl Hi. unfold enter_code. cbv zeta. cbn [shape]. intros [i|]; [intros s n; cbn [snd]|intros j]; apply sh_begin, Hi. }
    match goal with |- shape (Acquire _ ?z) => change (shape z) end.
    destruct (cf_clean_start _).
    - cbn [shape]. repeat (split; [discriminate|intros _ _]). apply Hg. intros x [].
    - cbn [shape]. intros [i|]; [apply Hg; intros x []|]. split; [discriminate|]. intros r _. destruct r as [| [st|] | | | | |]; try (apply Hg; intros x []).
      split; [discriminate|]. intros rw _. split; [discriminate|]. intros ri Hri. apply Hg. intros x Hx. destruct ri as [| | | | | |l]; try contradiction. apply (HR l); [apply Hri; reflexivity|exact Hx].
  Qed.
  Lemma outs_out i g : outs (out_code c i g).
  Proof.
    unfold out_code. cbn [outs]. intros s n. destruct (process_outgoing g s _) as [[[p| |] s']|]; cbn [snd]; try exact I; try reflexivity.
    assert (H : forall pid, pb_packet_id p = Some pid -> outs (client_id_of i (fun id => Store (StoreInflight id pid (Mk_inflight pid (pb_topic p) (pb_payload p) (pb_qos p) (pb_dup p))) (fun _ => Emit (Sent c (Publish p)) Finish)))).
    { intros pid Hp. cbn. intros s1 _. eexists _, _, _, p. split; [reflexivity|]. split; [reflexivity|]. split; [exact Hp|reflexivity]. }
    destruct (pb_packet_id p) as [pid|]; [|reflexivity]. destruct (pb_qos p); try reflexivity; apply H; reflexivity.
  Qed.
  Lemma sh_handler sv e : event_conn e = c -> (forall k u a l x, e = EFirst c (Some (Connect k)) u a -> R (presented k) l -> In x l -> E (Sent c (Publish (retry_publish x)))) ->
    (forall g, e <> EOut c g) -> shape (handler cfg sv e).
  Proof.
    intros H1 HR Ho. destruct e as [d [[]|] u a|d k|d g|d|d|]; simpl in H1; subst; destruct sv as [i|]; try exact I; cbn [handler];
      try (split; [apply HE; discriminate|exact I]).
    - apply sh_connect. intros l x. eapply HR. reflexivity.
    - apply sh_packet.
    - destruct (Ho g eq_refl).
    - apply sh_end.
  Qed.
  Lemma outs_handler sv g : outs (handler cfg sv (EOut c g)).
  Proof. destruct sv; [apply outs_out|exact I]. Qed.
End Shape.

Lemma shape_next E R k w o k1 : Conc.next k w = Some (o, k1) -> shape E R k -> (forall p r z l, o = OStore p r -> p = GetAllInflight z -> r = RInflights l -> R z l) ->
  shape E R k1 /\ (forall x, o = OOut x -> E x) /\ forall p r, o = OStore p r -> forall z n x, p <> StoreInflight z n x.
Proof.
  intros H Hk HR. destruct k; cbn [Conc.next shape] in *; try discriminate; try (injection H as <- <-; split; [apply Hk|]; split; intros; try discriminate; fail).
  - injection H as <- <-. split; [apply Hk|]. split; [intros x E1; injection E1 as <-; apply Hk|discriminate].
  - destruct (nth_error (w_heap w) i) as [s|]; [|discriminate]. specialize (Hk s (bk_tree (w_broker w))). destruct (f s _) as [s' k']. injection H as <- <-. split; [exact Hk|]. split; discriminate.
  - injection H as <- <-. split; [apply Hk; intros z l E1 E2; eapply HR; eauto|]. split; [discriminate|]. intros p r E1. injection E1 as <- <-. apply Hk.
Qed.
Lemma outs_next c k w o k1 : Conc.next k w = Some (o, k1) -> outs c k ->
  outs c k1 /\ forall p r, o = OStore p r -> exists z n x q, p = StoreInflight z n x /\ if_packet_id x = n /\ pb_packet_id q = Some n /\ k1 = Emit (Sent c (Publish q)) Finish.
Proof.
  intros H Hk. destruct k; cbn [Conc.next outs] in *; try discriminate; try contradiction.
  - injection H as <- <-. rewrite Hk. split; [exact I|discriminate].
  - destruct (nth_error (w_heap w) i) as [s|]; [|discriminate]. specialize (Hk s (bk_tree (w_broker w))). destruct (f s _) as [s' k']. injection H as <- <-. split; [exact Hk|discriminate].
  - destruct Hk as (z & n & x & q & -> & H1 & H2 & H3). injection H as <- <-. rewrite H3. split; [reflexivity|]. intros p r E. injection E as <- <-. exists z, n, x, q. auto.
  - injection H as <- <-. rewrite Hk. split; [reflexivity|discriminate].
Qed.

(** ** The store *)
Definition keysok (m : mem_store) : Prop := forall z l p x, aget bytes_eqb z (ms_inflight m) = Some l -> In (p, x) l -> if_packet_id x = p.
Definition clean (id : bytes) (n : N) (m : mem_store) : Prop := forall x, In x (mem_get_all_inflight id m) -> if_packet_id x <> n.
Lemma aput_in {A} p (y : A) l q z : In (q, z) (aput N.eqb p y l) -> (q, z) = (p, y) \/ In (q, z) l.
Proof.
  apply (in_aput_weak N.eqb N.eqb_eq).
Qed.
Lemma adel_in {A} p l q (z : A) : In (q, z) (adel N.eqb p l) -> In (q, z) l /\ q <> p.
Proof.
  unfold adel. intros H. apply filter_In in H. destruct H as [H1 H2]. split; [exact H1|]. intros ->. cbn in H2. rewrite N.eqb_refl in H2. discriminate.
Qed.
Lemma keys_step m o : keysok m -> (forall z p x, o = StoreInflight z p x -> if_packet_id x = p) -> keysok (snd (mem_step m o)).
Proof.
  intros H Ho. destruct o as [y st|y|y| |t [g|]|f| |y x|y|y|y pid x|y pid|y pid|y]; cbn [mem_step snd]; try exact H.
  - intros z l p x'. cbn. rewrite aget_aput by apply beqb_spec. destruct (bytes_eqb z y) eqn:E; [|apply H]. intros E1 Hi. injection E1 as <-. apply aput_in in Hi. destruct Hi as [Hi|Hi]; [injection Hi as -> ->; eapply Ho; reflexivity|].
    unfold inflight_of in Hi. destruct (aget bytes_eqb y (ms_inflight m)) eqn:E2; [|contradiction]. eapply H; eauto.
  - unfold mem_remove_inflight. destruct (aget bytes_eqb y (ms_inflight m)) as [l0|] eqn:E2; [|exact H]. intros z l p x'. cbn. rewrite aget_aput by apply beqb_spec. destruct (bytes_eqb z y) eqn:E; [|apply H].
    intros E1 Hi. injection E1 as <-. apply adel_in in Hi. eapply H; [exact E2|apply Hi].
Qed.
Lemma clean_step id n m o : clean id n m -> (forall p x, o = StoreInflight id p x -> if_packet_id x <> n) -> clean id n (snd (mem_step m o)).
Proof.
  intros H Ho. unfold clean, mem_get_all_inflight in *. destruct o as [y st|y|y| |t [g|]|f| |y x|y|y|y pid x|y pid|y pid|y]; cbn [mem_step snd]; try exact H.
  - cbn. rewrite aget_aput by apply beqb_spec. destruct (bytes_eqb id y) eqn:E; [|exact H]. apply beqb_spec in E. subst y. intros z Hz. unfold avals in Hz. apply in_map_iff in Hz. destruct Hz as ([p z'] & E1 & Hz). cbn in E1. subst z'.
    apply aput_in in Hz. destruct Hz as [Hz|Hz]; [injection Hz as -> ->; eapply Ho; reflexivity|]. unfold inflight_of in Hz. destruct (aget bytes_eqb id (ms_inflight m)) eqn:E2; [|contradiction]. apply H. unfold avals. apply in_map_iff. eexists. split; [|exact Hz]. reflexivity.
  - unfold mem_remove_inflight. destruct (aget bytes_eqb y (ms_inflight m)) as [l0|] eqn:E2; [|exact H]. cbn. rewrite aget_aput by apply beqb_spec. destruct (bytes_eqb id y) eqn:E; [|exact H]. apply beqb_spec in E. subst y.
    intros z Hz. unfold avals in Hz. apply in_map_iff in Hz. destruct Hz as ([p z'] & E1 & Hz). cbn in E1. subst z'. apply adel_in in Hz. rewrite E2 in H. apply H. unfold avals. apply in_map_iff. eexists. split; [|apply Hz]. reflexivity.
Qed.
Lemma clean_remove id n m : keysok m -> clean id n (mem_remove_inflight id n m).
Proof.
  intros H x Hx E. unfold mem_get_all_inflight, mem_remove_inflight in Hx. destruct (aget bytes_eqb id (ms_inflight m)) as [l|] eqn:E1; cbn in Hx.
  - rewrite aget_aput in Hx by apply beqb_spec. assert (Er : bytes_eqb id id = true) by (apply beqb_spec; reflexivity). rewrite Er in Hx. unfold avals in Hx. apply in_map_iff in Hx. destruct Hx as ([p y] & E2 & Hx). cbn in E2. subst y.
    apply adel_in in Hx. destruct Hx as [Hx Hp]. rewrite (H _ _ _ _ E1 Hx) in E. contradiction.
  - rewrite E1 in Hx. contradiction.
Qed.
Lemma store_apply d o w : (exists p r, o = OStore p r /\ w_store (apply d o w) = snd (mem_step (w_store w) p)) \/ ((forall p r, o <> OStore p r) /\ w_store (apply d o w) = w_store w).
Proof. destruct o; try (right; split; [discriminate|reflexivity]). left. eexists _, _. split; reflexivity. Qed.
Lemma next_store k w p r k1 : Conc.next k w = Some (OStore p r, k1) -> r = fst (mem_step (w_store w) p).
Proof. destruct k; cbn [Conc.next]; try discriminate; [destruct (nth_error _ _); [destruct (f _ _)|]; discriminate|]. intros H. injection H as <- <- _. reflexivity. Qed.

(** What is in flight is kept under its identifier, in every life. *)
Notation any := (fun _ : output => True).
Notation anyr := (fun (_ : bytes) (_ : list inflight) => True).
Definition kept_ok (x : conf) : Prop := keysok (w_store (cn_world x)) /\ forall d k, aget Nat.eqb d (cn_tasks x) = Some k -> shape any anyr k \/ outs d k.
Lemma kept_ok_step cfg x m y i : mstep cfg x m = Some (y, i) -> kept_ok x -> kept_ok y.
Proof.
  intros Hm [H1 H2]. apply mstep_inv in Hm. destruct Hm as [(e & -> & -> & He & Ha & ->)|[(d & -> & -> & Ha & ->)|(d & k & o & k1 & -> & -> & Ha & Hx & Hy & ->)]].
  - split; [exact H1|]. cbn [cn_tasks]. intros d k. rewrite (aget_aput Nat.eqb Nat.eqb_eq). destruct (Nat.eqb d (event_conn e)) eqn:Ed; [|apply H2]. apply Nat.eqb_eq in Ed. intros Ek. injection Ek as <-.
    assert (Ho : (exists g, e = EOut d g) \/ forall g, e <> EOut d g) by (destruct e; try (right; discriminate); cbn in Ed; subst; left; eauto). destruct Ho as [(g & ->)|Ho]; [right; apply outs_handler|left; apply (sh_handler d); auto].
  - split; [exact H1|]. cbn [cn_tasks]. intros d' k. rewrite (aget_adel Nat.eqb Nat.eqb_eq). destruct (Nat.eqb d' d); [discriminate|apply H2].
  - cbn [cn_world cn_tasks]. assert (Hn : (shape any anyr k1 \/ outs d k1) /\ forall p r, o = OStore p r -> forall z n x, p = StoreInflight z n x -> if_packet_id x = n).
    { destruct (H2 _ _ Ha) as [Hk|Hk].
      - destruct (shape_next any anyr _ _ _ _ Hx Hk ltac:(intros; exact I)) as (G1 & _ & G2). split; [auto|]. intros p r E z n x' E1. destruct (G2 _ _ E _ _ _ E1).
      - destruct (outs_next _ _ _ _ _ Hx Hk) as (G1 & G2). split; [auto|]. intros p r E z n x' E1. destruct (G2 _ _ E) as (z' & n' & y' & q & -> & H3 & _). injection E1 as <- <- <-. exact H3. }
    unfold kept_ok. cbn [cn_world cn_tasks]. split; [|intros d' k'; rewrite (aget_aput Nat.eqb Nat.eqb_eq); destruct (Nat.eqb d' d) eqn:Ed; [apply Nat.eqb_eq in Ed; subst d'; intros E; injection E as <-; apply Hn|apply H2]].
    destruct (store_apply d o (cn_world x)) as [(p & r & -> & ->)|[_ ->]]; [|exact H1]. apply keys_step; [exact H1|]. intros z n x'. apply (proj2 Hn p r eq_refl).
Qed.
Lemma kept_ok_runs cfg x tr y : mruns cfg x tr y -> kept_ok x -> kept_ok y.
Proof. induction 1; eauto using kept_ok_step. Qed.
Lemma kept_ok_on st : keysok st -> kept_ok (conf_on st).
Proof. intros H. split; [exact H|discriminate]. Qed.
Lemma keys_lives cfg trs st : lives cfg trs st -> keysok st.
Proof. induction 1 as [|trs st tr x Hl IH Hr Ht]; [intros z l p x; discriminate|]. apply (kept_ok_runs _ _ _ _ Hr (kept_ok_on _ IH)). Qed.

(** ** A connection whose client has nothing in flight under [n] *)
Section Free.
  Context (cfg : config) (c : nat) (id : bytes) (n : N).
  Definition Ex (o : output) : Prop := forall q, o = Sent c (Publish q) -> pb_packet_id q <> Some n.
  Definition Rx (z : bytes) (l : list inflight) : Prop := z = id -> forall x, In x l -> if_packet_id x <> n.
  Definition fair (i : item) : Prop :=
    (forall k u a, i = IStart (EFirst c (Some (Connect k)) u a) -> presented k = id) /\ forall d p r, i = IStep d (OStore p r) -> key p = Some id -> d = c.
  Definition quiet (x : conf) : Prop := clean id n (w_store (cn_world x)) /\ forall k, aget Nat.eqb c (cn_tasks x) = Some k -> shape Ex Rx k.
  Definition free (x : conf) : Prop := (clean id n (w_store (cn_world x)) /\ forall k, aget Nat.eqb c (cn_tasks x) = Some k -> shape Ex Rx k \/ outs c k)
    \/ exists q, aget Nat.eqb c (cn_tasks x) = Some (Emit (Sent c (Publish q)) Finish) /\ pb_packet_id q = Some n.
  Lemma Ex_other o : (forall q, o <> Sent c (Publish q)) -> Ex o.
  Proof. intros H q E. destruct (H q E). Qed.
  Lemma shape_start sv e : event_conn e = c -> fair (IStart e) -> (forall g, e <> EOut c g) -> shape Ex Rx (handler cfg sv e).
  Proof.
    intros H1 Hf Ho. apply (sh_handler c); [exact Ex_other|exact H1| |exact Ho]. intros k u a l x -> HR Hi q E. injection E as <-. cbn. intros E. injection E as E. revert E. apply HR; [|exact Hi].
    exact (proj1 Hf _ _ _ eq_refl).
  Qed.
  Lemma clean_other d o w : fair (IStep d o) -> d <> c -> clean id n (w_store w) -> clean id n (w_store (apply d o w)).
  Proof.
    intros Hf Hd H. destruct (store_apply d o w) as [(p & r & -> & ->)|[_ ->]]; [|exact H]. apply clean_step; [exact H|]. intros p' x ->. destruct Hd. exact (proj2 Hf _ _ _ eq_refl eq_refl).
  Qed.
  Lemma shape_go w k o k1 : clean id n (w_store w) -> Conc.next k w = Some (o, k1) -> shape Ex Rx k -> shape Ex Rx k1 /\ (forall x, o = OOut x -> Ex x) /\ clean id n (w_store (apply c o w)).
  Proof.
    intros Hc Hx Hk. destruct (shape_next Ex Rx _ _ _ _ Hx Hk) as (G1 & G2 & G3).
    - intros p r z l -> -> -> ->. apply next_store in Hx. cbn in Hx. injection Hx as ->. exact Hc.
    - split; [exact G1|]. split; [exact G2|]. destruct (store_apply c o w) as [(p & r & -> & ->)|[_ ->]]; [|exact Hc]. apply clean_step; [exact Hc|]. intros p' x ->. destruct (G3 _ _ eq_refl _ _ _ eq_refl).
  Qed.
  Lemma quiet_step x m y i : mstep cfg x m = Some (y, i) -> fair i -> (forall g, i <> IStart (EOut c g)) -> quiet x -> quiet y /\ forall q, i = IStep c (OOut (Sent c (Publish q))) -> pb_packet_id q <> Some n.
  Proof.
    intros Hm Hf Hg [H1 H2]. apply mstep_inv in Hm. destruct Hm as [(e & -> & -> & He & Ha & ->)|[(d & -> & -> & Ha & ->)|(d & k & o & k1 & -> & -> & Ha & Hx & Hy & ->)]].
    - split; [|discriminate]. split; [exact H1|]. cbn [cn_tasks]. intros k. rewrite (aget_aput Nat.eqb Nat.eqb_eq). destruct (Nat.eqb c (event_conn e)) eqn:Ed; [|apply H2]. apply Nat.eqb_eq in Ed. intros Ek. injection Ek as <-.
      apply shape_start; auto. intros g ->. destruct (Hg g eq_refl).
    - split; [|discriminate]. split; [exact H1|]. cbn [cn_tasks]. intros k. rewrite (aget_adel Nat.eqb Nat.eqb_eq). destruct (Nat.eqb c d); [discriminate|apply H2].
    - unfold quiet. cbn [cn_tasks cn_world]. destruct (Nat.eq_dec d c) as [->|Hd].
      + destruct (shape_go _ _ _ _ H1 Hx (H2 _ Ha)) as (G1 & G2 & G3). split; [split; [exact G3|]|].
        * intros k'. rewrite (aget_aput Nat.eqb Nat.eqb_eq), Nat.eqb_refl. intros E. injection E as <-. exact G1.
        * intros q E. injection E as ->. exact (G2 _ eq_refl _ eq_refl).
      + split; [|intros q E; injection E as E1 E2; contradiction]. split; [eapply clean_other; eauto|]. intros k'. rewrite (aget_aput Nat.eqb Nat.eqb_eq). destruct (Nat.eqb c d) eqn:Ed; [apply Nat.eqb_eq in Ed; congruence|apply H2].
  Qed.
  Lemma quiet_runs x tr y : mruns cfg x tr y -> Forall fair tr -> (forall g, ~ In (IStart (EOut c g)) tr) -> quiet x -> quiet y.
  Proof.
    induction 1 as [x|x m x1 i tr x2 Hm Hr IH]; intros Hf Hg H; [exact H|]. inversion Hf as [|? ? F1 F2]; subst. apply IH; [exact F2|intros g Hi; apply (Hg g); right; exact Hi|].
    eapply quiet_step; eauto. intros g ->. apply (Hg g). left. reflexivity.
  Qed.
  Lemma free_step x m y i : mstep cfg x m = Some (y, i) -> fair i -> (forall q, i = IStep c (OOut (Sent c (Publish q))) -> pb_packet_id q <> Some n) -> free x -> free y.
  Proof.
    intros Hm Hf Hg H. apply mstep_inv in Hm. unfold free. destruct Hm as [(e & -> & -> & He & Ha & ->)|[(d & -> & -> & Ha & ->)|(d & k & o & k1 & -> & -> & Ha & Hx & Hy & ->)]]; cbn [cn_tasks cn_world].
    - rewrite (aget_aput Nat.eqb Nat.eqb_eq). destruct (Nat.eqb c (event_conn e)) eqn:Ed; [|exact H]. apply Nat.eqb_eq in Ed. destruct H as [[H1 H2]|(q & H1 & _)]; [|congruence].
      left. split; [exact H1|]. intros k Ek. injection Ek as <-. assert (Ho : (exists g, e = EOut c g) \/ forall g, e <> EOut c g) by (destruct e; try (right; discriminate); cbn in Ed; subst; left; eauto).
      destruct Ho as [(g & ->)|Ho]; [right; apply outs_handler|left; apply shape_start; auto].
    - rewrite (aget_adel Nat.eqb Nat.eqb_eq). destruct (Nat.eqb c d) eqn:Ed; [|exact H]. apply Nat.eqb_eq in Ed. subst d. destruct H as [[H1 H2]|(q & H1 & _)]; [|congruence]. left. split; [exact H1|discriminate].
    - rewrite (aget_aput Nat.eqb Nat.eqb_eq). destruct (Nat.eqb c d) eqn:Ed.
      + apply Nat.eqb_eq in Ed. subst d. destruct H as [[H1 H2]|(q & H1 & H2)].
        * destruct (H2 _ Ha) as [Hk|Hk].
          -- destruct (shape_go _ _ _ _ H1 Hx Hk) as (G1 & G2 & G3). left. split; [exact G3|]. intros k' E. injection E as <-. auto.
          -- destruct (outs_next _ _ _ _ _ Hx Hk) as [G1 G2]. destruct (store_apply c o (cn_world x)) as [(p & r & -> & ->)|[_ ->]]; [|left; split; [exact H1|]; intros k' E; injection E as <-; auto].
             destruct (G2 _ _ eq_refl) as (z & p' & x' & q & -> & G3 & G4 & G5). destruct (N.eq_dec p' n) as [->|Hp]; [right; exists q; rewrite G5; auto|].
             left. split; [|intros k' E; injection E as <-; auto]. apply clean_step; [exact H1|]. intros p2 x2 E. injection E as _ <- <-. congruence.
        * assert (k = Emit (Sent c (Publish q)) Finish) as -> by congruence. cbn in Hx. injection Hx as <- <-. destruct (Hg q eq_refl H2).
      + destruct H as [[H1 H2]|H]; [left|right; exact H]. split; [|exact H2]. eapply clean_other; eauto. intros ->. rewrite Nat.eqb_refl in Ed. discriminate.
  Qed.
  Lemma free_runs x tr y : mruns cfg x tr y -> Forall fair tr -> not_sent c n tr -> free x -> free y.
  Proof.
    induction 1 as [x|x m x1 i tr x2 Hm Hr IH]; intros Hf Hg H; [exact H|]. inversion Hf as [|? ? F1 F2]; subst. apply IH; [exact F2|intros q Hi; apply Hg; right; exact Hi|].
    eapply free_step; eauto. intros q ->. apply Hg. left. reflexivity.
  Qed.
  Lemma again_free x tr y q before : mruns cfg x tr y -> Forall fair tr -> free x -> sent_again c q before tr -> not_sent c n before -> pb_packet_id q <> Some n.
  Proof.
    intros Hr Hf H (a & k & u & w & b & after & -> & -> & Hb) Hn. apply Forall_app in Hf. destruct Hf as [Fa Hf]. inversion Hf as [|? ? F1 Hf2]; subst. apply Forall_app in Hf2. destruct Hf2 as [Fb Hf2]. inversion Hf2 as [|? ? F2 _]; subst.
    apply mruns_app in Hr. destruct Hr as (x1 & R1 & Hr). assert (H1 : free x1) by (eapply free_runs; [exact R1|exact Fa| |exact H]; intros q' Hq; apply Hn, in_or_app; left; exact Hq).
    inversion Hr as [|? m x2 ? ? ? Hm Hr2]; subst. apply mruns_app in Hr2. destruct Hr2 as (x3 & R3 & Hr3). inversion Hr3 as [|? m3 x4 ? ? ? Hm3 _]; subst.
    assert (Q1 : quiet x1).
    { apply mstep_inv in Hm. destruct Hm as [(e & -> & E & He & Ha & _)|[(d & -> & E & _)|(d & k' & o & k1 & -> & E & _)]]; try discriminate. injection E as <-. cbn [event_conn] in Ha.
      destruct H1 as [[H1 _]|(q' & H1 & _)]; [|congruence]. split; [exact H1|congruence]. }
    assert (Q2 : quiet x2) by (eapply quiet_step; [exact Hm|exact F1|discriminate|exact Q1]).
    assert (Q3 : quiet x3) by (eapply quiet_runs; [exact R3|exact Fb| |exact Q2]; intros g Hi; exact (Hb _ Hi eq_refl)).
    eapply quiet_step; [exact Hm3|exact F2|discriminate|exact Q3|reflexivity].
  Qed.
End Free.

(** ** The handling of the packet that ends a delivery *)
Section Settle.
  Context (cfg : config) (c : nat) (id : bytes) (n : N).
  Definition mykey (i : item) : Prop := forall p r z, i = IStep c (OStore p r) -> key p = Some z -> z = id.
  Fixpoint removing (k : code) : Prop :=
    match k with
    | Sess _ g => forall s t, removing (snd (g s t))
    | Store (RemoveInflight _ m) g => m = n /\ forall r, shape (Ex c n) (Rx id n) (g r)
    | _ => False
    end.
  Lemma removing_handler i k : settles n k -> removing (handler cfg (Some i) (EPacket c k)).
  Proof. intros (a & <- & [-> | ->]); cbn; intros s t s' t'; split; auto; intros _; exact I. Qed.
  Definition busy (x : conf) : Prop := kept_ok x /\ ((exists k, aget Nat.eqb c (cn_tasks x) = Some k /\ removing k) \/ quiet c id n x).
  Lemma busy_step x m y i : mstep cfg x m = Some (y, i) -> fair c id i -> mykey i -> (forall e, i = IStart e -> event_conn e <> c) -> busy x -> busy y.
  Proof.
    intros Hm Hf Hk Hs [H1 H2]. split; [eapply kept_ok_step; eauto|]. destruct H2 as [(k0 & K1 & K2)|H2]; [|right; eapply quiet_step; eauto; intros g ->; exact (Hs _ eq_refl eq_refl)].
    apply mstep_inv in Hm. destruct Hm as [(e & -> & -> & He & Ha & ->)|[(d & -> & -> & Ha & ->)|(d & k & o & k1 & -> & -> & Ha & Hx & Hy & ->)]].
    - left. exists k0. cbn [cn_tasks]. rewrite (aget_aput Nat.eqb Nat.eqb_eq). destruct (Nat.eqb c (event_conn e)) eqn:Ed; [|auto]. apply Nat.eqb_eq in Ed. destruct (Hs _ eq_refl). auto.
    - left. exists k0. cbn [cn_tasks]. rewrite (aget_adel Nat.eqb Nat.eqb_eq). destruct (Nat.eqb c d) eqn:Ed; [|auto]. apply Nat.eqb_eq in Ed. subst d. assert (k0 = Finish) as -> by congruence. destruct K2.
    - unfold quiet. cbn [cn_tasks cn_world]. rewrite (aget_aput Nat.eqb Nat.eqb_eq). destruct (Nat.eqb c d) eqn:Ed; [|left; eauto]. apply Nat.eqb_eq in Ed. subst d. assert (k0 = k) as -> by congruence. clear K1.
      destruct k; cbn [removing Conc.next] in K2, Hx; try contradiction.
      + destruct (nth_error (w_heap (cn_world x)) i) as [s|]; [|discriminate]. specialize (K2 s (bk_tree (w_broker (cn_world x)))). destruct (f s _) as [s' k']. injection Hx as <- <-. left. eauto.
      + destruct o0; try contradiction. destruct K2 as [-> K2]. injection Hx as <- <-. right. pose proof (Hk _ _ _ eq_refl eq_refl) as ->. split; [apply clean_remove, H1|].
        intros k' E. injection E as <-. apply K2.
  Qed.
  Lemma busy_runs x tr y : mruns cfg x tr y -> Forall (fair c id) tr -> Forall mykey tr -> (forall e, In (IStart e) tr -> event_conn e <> c) -> busy x -> busy y.
  Proof.
    induction 1 as [x|x m x1 i tr x2 Hm Hr IH]; intros Hf Hk Hs H; [exact H|]. inversion Hf as [|? ? F1 F2]; subst. inversion Hk as [|? ? K1 K2]; subst. apply IH; [exact F2|exact K2|intros e He; apply Hs; right; exact He|].
    eapply busy_step; eauto. intros e ->. apply Hs. left. reflexivity.
  Qed.
End Settle.
Lemma owned_fair_in {st0} cfg TR x c id {Hsane : Sane cfg st0} : mruns cfg (conf_on st0) TR x -> (forall c, Forall texts (events_of c TR)) -> owns c id TR ->
  forall tr, (forall i, In i tr -> In i TR) -> Forall (fair c id) tr /\ Forall (mykey c id) tr.
Proof.
  intros Hr Ht Ho tr Hin. split; apply Forall_forall; intros i Hi.
  - split; [intros k u a ->; apply (proj1 Ho); exists k, u, a; auto|]. intros d p r -> E. destruct (Nat.eq_dec d c) as [|Hd]; [assumption|].
    destruct (nobody_else cfg TR x c id Hr Ht Ho d _ (Hin _ Hi) Hd) as [_ H]. destruct (H _ _ eq_refl E).
  - intros p r z -> E. destruct (keyed_runs cfg TR Ht (conf_on st0) TR x Hr [] []) as [_ H]; [rewrite app_nil_r; reflexivity|constructor|discriminate|].
    destruct (H _ _ _ (Hin _ Hi)) as [_ Hk]. destruct (Hk z E) as (e & He1 & He2). rewrite (owns_linked _ _ _ _ Ho He1) in He2. apply (proj1 Ho), He2.
Qed.
Lemma settled_free cfg trs st0 c id n pre mid rest TR x : lives cfg trs st0 -> mruns cfg (conf_on st0) TR x -> (forall c, Forall texts (events_of c TR)) -> owns c id TR -> settled c n pre mid rest TR ->
  exists y, mruns cfg y rest x /\ free c id n y /\ Forall (fair c id) rest.
Proof.
  intros Hl Hr Ht Ho (k & -> & Hk & Hmid & (o & Hst)). pose proof (lives_sane _ _ _ Hl) as Hsane. pose proof (owned_fair_in cfg _ x c id Hr Ht Ho) as Hin.
  destruct (Hin (mid ++ IEnd c :: rest)) as [Hf Hm]; [intros i Hi; apply in_or_app; right; right; exact Hi|]. apply Forall_app in Hf, Hm. destruct Hf as [F1 F2], Hm as [M1 _]. inversion F2 as [|? ? _ F3]; subst.
  apply mruns_app in Hr. destruct Hr as (x0 & R0 & Hr). inversion Hr as [|? m x1 ? ? ? Hm1 Hr1]; subst. apply mruns_app in Hr1. destruct Hr1 as (x2 & R2 & Hr2). inversion Hr2 as [|? m2 x3 ? ? ? Hm2 R3]; subst.
  exists x3. split; [exact R3|]. split; [|exact F3].
  pose proof (kept_ok_runs _ _ _ _ R0 (kept_ok_on _ (keys_lives _ _ _ Hl))) as K0. assert (B1 : busy c id n x1).
  { split; [eapply kept_ok_step; eauto|]. left. apply mstep_inv in Hm1. destruct Hm1 as [(e & -> & E & He & Ha & ->)|[(d & -> & E & _)|(d & k' & o' & k1 & -> & E & _)]]; try discriminate. injection E as <-. cbn [event_conn cn_tasks] in *.
    rewrite (aget_aput Nat.eqb Nat.eqb_eq), Nat.eqb_refl. eexists. split; [reflexivity|]. destruct (aget Nat.eqb c (w_conns (cn_world x0))) as [i|] eqn:Ei; [apply removing_handler, Hk|].
    exfalso. eapply idle_runs; [exact R2|exact Hmid| |exact Hst]. cbn [cn_tasks]. intros k'. rewrite (aget_aput Nat.eqb Nat.eqb_eq), Nat.eqb_refl. cbn [handler]. congruence. }
  destruct (busy_runs _ _ _ _ _ _ _ R2 F1 M1 Hmid B1) as [_ [(k0 & K1 & K2)|[Q1 Q2]]]; apply mstep_inv in Hm2; destruct Hm2 as [(e & -> & E & _)|[(d & -> & E & Ha & ->)|(d & k' & o' & k1 & -> & E & _)]]; try discriminate; injection E as <-.
  - assert (k0 = Finish) as -> by congruence. destruct K2.
  - left. cbn [cn_world cn_tasks]. split; [exact Q1|]. intros k'. rewrite (aget_adel Nat.eqb Nat.eqb_eq), Nat.eqb_refl. discriminate.
Qed.
Lemma free_on c id n st : clean id n st -> free c id n (conf_on st).
Proof. intros H. left. split; [exact H|discriminate]. Qed.
Lemma free_rest c id n x : free c id n x -> at_rest c x -> clean id n (w_store (cn_world x)).
Proof. intros [[H _]|(q & H & _)] Hr; [exact H|]. unfold at_rest in Hr. congruence. Qed.
Lemma life_free cfg trs st tr x c id n : lives cfg trs st -> mruns cfg (conf_on st) tr x -> (forall d, Forall texts (events_of d tr)) -> owns c id tr -> clean id n st -> not_sent c n tr -> free c id n x.
Proof.
  intros Hl Hr Ht Ho Hc Hn. pose proof (lives_sane _ _ _ Hl) as Hsane. destruct (owned_fair_in cfg _ x c id Hr Ht Ho tr ltac:(auto)) as [F _]. eapply free_runs; eauto. apply free_on, Hc.
Qed.
Lemma another_lives cfg id n trs st st2 : lives cfg trs st -> without_another cfg id n st st2 -> clean id n st -> (exists trs', lives cfg trs' st2) /\ clean id n st2.
Proof.
  intros Hl H Hc. induction H as [|st1 c tr x H [[trs' IH1] IH2] Hr Ht Ho Hn Hx]; [eauto|]. split; [eexists; eapply lv_more; eauto|]. eapply free_rest; [eapply life_free; eauto|exact Hx].
Qed.
