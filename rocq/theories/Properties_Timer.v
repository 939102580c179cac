(** Property C50: the keep-alive timer. *)
From Coq Require Import String.
From Verif Require Import Base Codec Tac Str Maps Topic Property PacketProps Packets TopicTree TreeFacts Storage Broker Auth
  Session Server SpecServer SessionFacts ServerFacts HandlerFacts ConnectFacts Examples Timer.
Local Open Scope list_scope.

(** ** Vocabulary *)
(** A history: events with the time of each. *)
Definition tstate (cfg : config) (h : list (N * timed_event)) : timed_world := fst (trun cfg h timed_world_new).
Definition unserved (tw : timed_world) (c : nat) : Prop := not_served (tw_world tw) c.
(** When the broker last heard of connection [c]: opened at [t], then history [h]. *)
Fixpoint last_heard (c : nat) (t : N) (h : list (N * timed_event)) : N :=
  match h with
  | [] => t
  | (t', TEvent (EPacket d _)) :: h => last_heard c (if Nat.eqb d c then t' else t) h
  | _ :: h => last_heard c t h
  end.
(** After [h] connection [c], opened with the CONNECT [k], is still served, and was last heard of at [t0]. *)
Definition live (cfg : config) (h : list (N * timed_event)) (c : nat) (k : connect_packet) (t0 : N) : Prop :=
  exists h1 t1 u a h2, h = h1 ++ (t1, TEvent (EFirst c (Some (Connect k)) u a)) :: h2
    /\ unserved (tstate cfg h1) c
    /\ (forall p q, h2 = p ++ q -> ~ unserved (tstate cfg (h1 ++ (t1, TEvent (EFirst c (Some (Connect k)) u a)) :: p)) c)
    /\ t0 = last_heard c t1 h2.
(** The clock is below 2^62 seconds (146 billion years). *)
Definition clock_ok (h : list (N * timed_event)) : Prop := Forall (fun e => fst e < 2 ^ 62 * second) h.
(** A keep-alive interval in seconds, as a CONNECT can carry it, other than 0. *)
Definition interval (k : connect_packet) (s : N) : Prop := c_keepalive k = s /\ 0 < s /\ s <= 65535.

(** ** Facts *)
Lemma trun_app cfg h1 : forall h2 tw, trun cfg (h1 ++ h2) tw =
  (fst (trun cfg h2 (fst (trun cfg h1 tw))), snd (trun cfg h1 tw) ++ snd (trun cfg h2 (fst (trun cfg h1 tw)))).
Proof.
  induction h1 as [|e h1 IH]; intros h2 tw; cbn [trun app].
  - cbn [fst snd app]. destruct (trun cfg h2 tw); reflexivity.
  - destruct (tstep cfg tw e) as [tw1 o]. rewrite IH. destruct (trun cfg h1 tw1) as [tw2 o2]. cbn [fst snd].
    destruct (trun cfg h2 tw2). cbn [fst snd]. rewrite app_assoc. reflexivity.
Qed.
Lemma tstate_snoc cfg h e : tstate cfg (h ++ [e]) = fst (tstep cfg (tstate cfg h) e).
Proof. unfold tstate. rewrite trun_app. cbn [fst trun]. destruct (tstep _ _ e); reflexivity. Qed.
Lemma last_heard_snoc c h e : forall t, last_heard c t (h ++ [e]) = last_heard c (last_heard c t h) [e].
Proof. induction h as [|[t' [[]|]] h IH]; intros t; [reflexivity|..]; cbn [last_heard app]; apply IH. Qed.

Lemma timeout_small s : 0 < s <= 65535 -> timeout_duration s = s * 3 / 2 /\ timeout_duration s <= 98302.
Proof.
  intros H. unfold timeout_duration. replace (s =? 0) with false by (symmetry; apply N.eqb_neq; lia).
  split; [reflexivity|]. apply (N.le_trans _ (65535 * 3 / 2)); [apply N.div_le_mono; lia|reflexivity].
Qed.
Lemma checked_add_ok t s : t < 2 ^ 62 * second -> s <= 98302 -> checked_add t s = Some (t + s * second).
Proof.
  intros Ht Hs. unfold checked_add. replace (t / second + s <=? i64_max) with true; [reflexivity|].
  symmetry. apply N.leb_le. assert (H : t / second < 2 ^ 62) by (apply N.div_lt_upper_bound; [discriminate|lia]).
  change i64_max with 9223372036854775807. change (2 ^ 62) with 4611686018427387904 in H. lia.
Qed.

Lemma tstep_wf cfg tw e : wf (tw_world tw) -> wf (tw_world (fst (tstep cfg tw e))).
Proof.
  intros H. destruct e as [t te]. unfold tstep.
  assert (Hs : forall e, wf (fst (step cfg (tw_world tw) e))).
  { intros e. destruct (step cfg (tw_world tw) e) as [w' o] eqn:E. exact (step_wf _ _ _ _ _ H E). }
  destruct te as [e|c]; [pose proof (Hs e) as He|pose proof (Hs (EEnd c)) as He].
  - destruct e as [c first u a|c p|c f|c|c|]; destruct (step cfg (tw_world tw) _) as [w' o]; cbn [fst] in He; auto.
    + destruct first as [[]|]; auto. destruct (aget Nat.eqb c (w_conns (tw_world tw))); auto. destruct (aget Nat.eqb c (w_conns w')); auto.
    + destruct (aget Nat.eqb c (w_conns w')); auto. destruct (aget Nat.eqb c (tw_timers tw)) as [[d x]|]; auto.
      destruct (reset_deadline t d); auto; (destruct He as [H1 H2]; split; [exact H1|]; cbn; intros d' i Hd;
        rewrite (aget_adel _ nateqb_spec) in Hd; destruct (Nat.eqb d' c); [discriminate|eauto]).
  - destruct (aget Nat.eqb c (tw_timers tw)) as [[d x]|]; auto. destruct (x <=? t); auto.
    destruct (step cfg (tw_world tw) (EEnd c)) as [w' o]. exact He.
Qed.
Lemma tstate_wf cfg h : wf (tw_world (tstate cfg h)).
Proof. induction h as [|e h IH] using rev_ind; [apply wf_new|]. rewrite tstate_snoc. apply tstep_wf, IH. Qed.
Lemma twf_serves w c i : wf w -> aget Nat.eqb c (w_conns w) = Some i -> exists s, serves w c i s.
Proof.
  intros [_ H] Hc. pose proof (H _ _ Hc) as Hi. apply nth_error_Some in Hi. destruct (nth_error (w_heap w) i) as [s|] eqn:E; [|congruence].
  exists s. split; assumption.
Qed.

(** What a step does to the timer of [c]. *)
Lemma tstep_timer cfg tw t te c d x : aget Nat.eqb c (tw_timers tw) = Some (d, x) -> aget Nat.eqb c (w_conns (tw_world tw)) <> None ->
  ~ unserved (fst (tstep cfg tw (t, te))) c ->
  aget Nat.eqb c (tw_timers (fst (tstep cfg tw (t, te)))) =
    match te with
    | TEvent (EPacket c' _) => if Nat.eqb c' c then match checked_add t d with Some y => Some (d, y) | None => None end else Some (d, x)
    | _ => Some (d, x)
    end.
Proof.
  intros Ht Hs Hs'. unfold tstep in *. destruct te as [[c' first u a|c' p|c' f|c'|c'|]|c'].
  - destruct (step cfg (tw_world tw) _) as [w' o]. destruct first as [[]|]; cbn [fst tw_timers] in *; auto.
    destruct (aget Nat.eqb c' (w_conns (tw_world tw))) eqn:E; cbn [fst tw_timers] in *; auto.
    destruct (aget Nat.eqb c' (w_conns w')); cbn [fst tw_timers] in *; auto.
    rewrite (aget_put_other _ nateqb_spec); [exact Ht|]. intros ->. congruence.
  - destruct (step cfg (tw_world tw) _) as [w' o]. destruct (Nat.eqb c' c) eqn:Ec.
    + apply Nat.eqb_eq in Ec. subst c'. rewrite Ht in *. destruct (aget Nat.eqb c (w_conns w')) eqn:Ew.
      * unfold reset_deadline in *. destruct (checked_add t d); cbn [fst tw_timers] in *.
        -- apply aget_put_same, nateqb_spec.
        -- exfalso. apply Hs'. unfold unserved, not_served. cbn. apply aget_del_same, nateqb_spec.
      * exfalso. apply Hs'. exact Ew.
    + apply Nat.eqb_neq in Ec. destruct (aget Nat.eqb c' (w_conns w')); [|exact Ht].
      destruct (aget Nat.eqb c' (tw_timers tw)) as [[d' x']|]; [|exact Ht]. unfold reset_deadline.
      destruct (checked_add t d'); cbn [fst tw_timers]; [|exact Ht]. rewrite (aget_put_other _ nateqb_spec); auto.
  - destruct (step cfg (tw_world tw) _) as [w' o]. exact Ht.
  - destruct (step cfg (tw_world tw) _) as [w' o]. exact Ht.
  - destruct (step cfg (tw_world tw) _) as [w' o]. exact Ht.
  - destruct (step cfg (tw_world tw) _) as [w' o]. exact Ht.
  - destruct (aget Nat.eqb c' (tw_timers tw)) as [[d' x']|]; [|exact Ht]. destruct (x' <=? t); [|exact Ht].
    destruct (step cfg (tw_world tw) _) as [w' o]. exact Ht.
Qed.

Lemma live_snoc cfg h e c k t0 : live cfg (h ++ [e]) c k t0 ->
  (exists u a, e = (t0, TEvent (EFirst c (Some (Connect k)) u a)) /\ unserved (tstate cfg h) c /\ ~ unserved (tstate cfg (h ++ [e])) c)
  \/ (exists t, live cfg h c k t /\ t0 = last_heard c t [e] /\ ~ unserved (tstate cfg h) c /\ ~ unserved (tstate cfg (h ++ [e])) c).
Proof.
  intros (h1 & t1 & u & a & h2 & E & Hn & Hs & Ht). destruct h2 as [|e2 h2] using rev_ind.
  - left. apply app_inj_tail in E. destruct E as [-> ->]. cbn [last_heard] in Ht. subst t0. exists u, a.
    split; [reflexivity|]. split; [exact Hn|]. apply (Hs [] []). reflexivity.
  - clear IHh2. right. rewrite app_comm_cons, app_assoc in E. apply app_inj_tail in E. destruct E as [-> ->].
    exists (last_heard c t1 h2). split.
    + exists h1, t1, u, a, h2. split; [reflexivity|]. split; [exact Hn|]. split; [|reflexivity].
      intros p q ->. apply (Hs p (q ++ [e2])). rewrite app_assoc. reflexivity.
    + split; [rewrite Ht; apply last_heard_snoc|]. split; [apply (Hs h2 [e2]); reflexivity|].
      rewrite <- app_assoc. apply (Hs (h2 ++ [e2]) []). symmetry. apply app_nil_r.
Qed.

Lemma live_timer cfg h : forall c k t0, live cfg h c k t0 ->
  exists x, aget Nat.eqb c (tw_timers (tstate cfg h)) = Some (timeout_duration (c_keepalive k), x)
    /\ (clock_ok h -> timeout_duration (c_keepalive k) <= 98302 -> x = t0 + timeout_duration (c_keepalive k) * second)
    /\ ((exists q, x = t0 + q /\ (q = timeout_duration (c_keepalive k) * second \/ 86400 * 365 * 30 * second = q))).
Proof.
  induction h as [|e h IH] using rev_ind; intros c k t0 H; [destruct H as (h1 & t1 & u & a & h2 & E & _); destruct h1; discriminate|].
  apply live_snoc in H. destruct H as [(u & a & -> & Hn & Hs)|(t & H & -> & Hs & Hs')].
  - rewrite tstate_snoc in *. unfold tstep in *. destruct (step cfg (tw_world (tstate cfg h)) _) as [w' o].
    unfold unserved, not_served in Hn. rewrite Hn in *.
    destruct (aget Nat.eqb c (w_conns w')) eqn:Ew; [|exfalso; apply Hs; exact Ew]. cbn [fst tw_timers].
    rewrite (aget_put_same _ nateqb_spec). eexists. split; [reflexivity|]. unfold sleep_deadline. split.
    + intros Hc Hd. apply Forall_app in Hc. destruct Hc as [_ Hc]. apply Forall_inv in Hc. cbn [fst] in Hc.
      rewrite checked_add_ok by assumption. reflexivity.
    + unfold checked_add. destruct (_ <=? _); eexists; split; eauto.
  - destruct (IH _ _ _ H) as (x & Hx & Hok & Hq). destruct e as [t' te]. rewrite tstate_snoc in *.
    rewrite (tstep_timer _ _ _ _ _ _ _ Hx Hs Hs').
    assert (Hsame : exists x0, Some (timeout_duration (c_keepalive k), x) = Some (timeout_duration (c_keepalive k), x0) /\
       (clock_ok (h ++ [(t', te)]) -> timeout_duration (c_keepalive k) <= 98302 -> x0 = t + timeout_duration (c_keepalive k) * second)
       /\ (exists q, x0 = t + q /\ (q = timeout_duration (c_keepalive k) * second \/ 86400 * 365 * 30 * second = q))).
    { exists x. split; [reflexivity|]. split; [|exact Hq]. intros Hc. apply Hok. apply Forall_app in Hc. apply Hc. }
    destruct te as [[c' first u a|c' p|c' f|c'|c'|]|c']; try exact Hsame. cbn [last_heard]. destruct (Nat.eqb c' c) eqn:Ec; [|exact Hsame].
    destruct (checked_add t' _) as [y|] eqn:Ey.
    + eexists. split; [reflexivity|]. unfold checked_add in Ey. destruct (_ <=? _); [|discriminate]. injection Ey as <-. split; [reflexivity|eauto].
    + exfalso. apply Hs'. apply Nat.eqb_eq in Ec. subst c'. unfold tstep. destruct (step cfg (tw_world (tstate cfg h)) _) as [w' o].
      destruct (aget Nat.eqb c (w_conns w')) eqn:Ew; [|exact Ew]. rewrite Hx. unfold reset_deadline. rewrite Ey. unfold unserved, not_served. cbn.
      apply aget_del_same, nateqb_spec.
Qed.

(** ** Theorems *)
(** Every connection served is live in the sense of the theorems. *)
Theorem C50_served_is_live cfg h c : ~ unserved (tstate cfg h) c -> exists k t0, live cfg h c k t0.
Proof.
  induction h as [|[t te] h IH] using rev_ind; intros Hs; [exfalso; apply Hs; reflexivity|].
  destruct (aget Nat.eqb c (w_conns (tw_world (tstate cfg h)))) as [i|] eqn:E.
  - assert (Hs0 : ~ unserved (tstate cfg h) c) by (unfold unserved, not_served; congruence).
    destruct (IH Hs0) as (k & t0 & (h1 & t1 & u & a & h2 & -> & Hn & Hall & Ht)).
    exists k. eexists. exists h1, t1, u, a, (h2 ++ [(t, te)]). split; [rewrite <- app_assoc; reflexivity|]. split; [exact Hn|].
    split; [|reflexivity]. intros p q Epq. destruct q as [|e q] using rev_ind.
    + rewrite app_nil_r in Epq. subst p. rewrite <- app_assoc in Hs. exact Hs.
    + clear IHq. rewrite app_assoc in Epq. apply app_inj_tail in Epq. destruct Epq as [Epq _]. eapply Hall, Epq.
  - assert (He : exists k u a, te = TEvent (EFirst c (Some (Connect k)) u a)).
    { rewrite tstate_snoc in Hs. unfold unserved, not_served in Hs. set (w := tstate cfg h) in *.
      assert (Hstep : forall e, aget Nat.eqb c (w_conns (fst (step cfg (tw_world w) e))) <> None -> exists k u a, e = EFirst c (Some (Connect k)) u a).
      { intros e He. destruct (step cfg (tw_world w) e) as [w' o] eqn:Es. cbn [fst] in He.
        assert (Hd : (exists first u a, e = EFirst c first u a) \/ forall first u a, e <> EFirst c first u a).
        { destruct e as [d first u a|d|d|d|d|]; try (right; intros; discriminate).
          destruct (Nat.eq_dec d c) as [->|Hne]; [left; eauto|right; intros; congruence]. }
        destruct Hd as [(first & u & a & ->)|Hd].
        - cbn [step] in Es. rewrite E in Es. cbn [is_some] in Es.
          destruct first as [[]|]; try (injection Es as <- _; congruence). eauto.
        - destruct (step_conns _ _ _ _ _ c Es Hd) as [H|H]; unfold not_served in *; congruence. }
      unfold tstep in Hs. destruct te as [e|d].
      - enough (Hx : exists k u a, e = EFirst c (Some (Connect k)) u a) by (destruct Hx as (k & u & a & ->); eauto).
        apply Hstep. destruct e as [d first u a|d p|d f|d|d|];
          [| |destruct (step cfg (tw_world w) _); exact Hs|destruct (step cfg (tw_world w) _); exact Hs|destruct (step cfg (tw_world w) _); exact Hs|destruct (step cfg (tw_world w) _); exact Hs].
        + destruct (step cfg (tw_world w) _) as [w' o]. cbn [fst].
          destruct first as [[]|]; try exact Hs. destruct (aget Nat.eqb d (w_conns (tw_world w))); try exact Hs.
          destruct (aget Nat.eqb d (w_conns w')); exact Hs.
        + destruct (step cfg (tw_world w) _) as [w' o]. cbn [fst]. destruct (aget Nat.eqb d (w_conns w')); try exact Hs.
          destruct (aget Nat.eqb d (tw_timers w)) as [[d' x']|]; try exact Hs. destruct (reset_deadline t d'); try exact Hs;
          (cbn in Hs; rewrite (aget_adel _ nateqb_spec) in Hs; destruct (Nat.eqb c d); congruence).
      - destruct (aget Nat.eqb d (tw_timers w)) as [[d' x']|]; [|exfalso; apply Hs; exact E]. destruct (x' <=? t); [|exfalso; apply Hs; exact E].
        assert (Hx : aget Nat.eqb c (w_conns (fst (step cfg (tw_world w) (EEnd d)))) <> None) by (destruct (step cfg (tw_world w) (EEnd d)); exact Hs).
        apply Hstep in Hx. destruct Hx as (k & u & a & Hx). discriminate. }
    destruct He as (k & u & a & ->). exists k, t. exists h, t, u, a, []. split; [reflexivity|]. split; [exact E|]. split; [|reflexivity].
    intros p q Epq. symmetry in Epq. apply app_eq_nil in Epq. destruct Epq as [-> _]. exact Hs.
Qed.
Print Assumptions C50_served_is_live.
(** The timer does nothing until one and a half intervals (rounded down to a second) after the
    broker last heard of the client (times are in nanoseconds) ... *)
Theorem C50_not_before cfg h c k t0 s t : clock_ok h -> live cfg h c k t0 -> interval k s ->
  t < t0 + (s * 3 / 2) * 1000000000 -> tstep cfg (tstate cfg h) (t, TTimer c) = (tstate cfg h, []).
Proof.
  change 1000000000 with second.
  intros Hc H [Hk Hs] Ht. destruct (live_timer _ _ _ _ _ H) as (x & Hx & Hok & _). rewrite Hk in *.
  destruct (timeout_small s Hs) as [E Hd]. specialize (Hok Hc Hd). cbn [tstep]. rewrite Hx. rewrite E in Hok.
  replace (x <=? t) with false by (symmetry; apply N.leb_gt; lia). reflexivity.
Qed.
Print Assumptions C50_not_before.
(** ... and ends the connection from then on, as a lost connection. *)
Theorem C50_ends cfg h c k t0 s t tw o : clock_ok h -> live cfg h c k t0 -> interval k s ->
  t0 + (s * 3 / 2) * 1000000000 <= t -> tstep cfg (tstate cfg h) (t, TTimer c) = (tw, o) ->
  step cfg (tw_world (tstate cfg h)) (EEnd c) = (tw_world tw, o) /\ o = [Closed c] /\ unserved tw c.
Proof.
  change 1000000000 with second.
  intros Hc H [Hk Hs] Ht Hst. destruct (live_timer _ _ _ _ _ H) as (x & Hx & Hok & _). rewrite Hk in *.
  destruct (timeout_small s Hs) as [E Hd]. specialize (Hok Hc Hd). cbn [tstep] in Hst. rewrite Hx in Hst. rewrite E in Hok.
  replace (x <=? t) with true in Hst by (symmetry; apply N.leb_le; lia).
  destruct (step cfg (tw_world (tstate cfg h)) (EEnd c)) as [w' o'] eqn:Es. injection Hst as <- <-. cbn [tw_world].
  split; [reflexivity|].
  assert (Hsv : ~ unserved (tstate cfg h) c).
  { destruct H as (h1 & t1 & u & a & h2 & -> & _ & Hall & _). apply (Hall h2 []). symmetry. apply app_nil_r. }
  unfold unserved, not_served in Hsv. destruct (aget Nat.eqb c (w_conns (tw_world (tstate cfg h)))) as [i|] eqn:Ei; [|congruence].
  destruct (twf_serves _ _ _ (tstate_wf cfg h) Ei) as [s1 Hs1]. rewrite (step_end _ _ _ _ _ Hs1) in Es. injection Es as <- <-.
  split; [reflexivity|]. unfold unserved, not_served. cbn [tw_world]. rewrite end_conns. apply aget_del_same, nateqb_spec.
Qed.
Print Assumptions C50_ends.
(** In terms of the interval: a client heard of at least once per interval, even up to half an
    interval late (rounded down to a second), is never ended by the timer. Missing from the full
    claim: an interval of one second, and of zero. *)
Theorem C50_regular_client_partial cfg h c k t0 s late t : clock_ok h -> live cfg h c k t0 -> interval k s ->
  late < (s / 2) * 1000000000 -> t <= t0 + s * 1000000000 + late ->
  tstep cfg (tstate cfg h) (t, TTimer c) = (tstate cfg h, []).
Proof.
  change 1000000000 with second.
  intros Hc H Hk Hl Ht. eapply C50_not_before; eauto. destruct Hk as [_ Hs]. unfold second in *.
  assert (E : s * 3 / 2 = s + s / 2) by (replace (s * 3) with (s + s * 2) by lia; rewrite N.div_add by discriminate; lia). lia.
Qed.
Print Assumptions C50_regular_client_partial.
(** A client not heard of for one and a half intervals is cut off as soon as the broker looks. *)
Theorem C50_silent_client cfg h c k t0 s t tw o : clock_ok h -> live cfg h c k t0 -> interval k s ->
  t0 + s * 1000000000 + s * 1000000000 / 2 <= t -> tstep cfg (tstate cfg h) (t, TTimer c) = (tw, o) ->
  step cfg (tw_world (tstate cfg h)) (EEnd c) = (tw_world tw, o) /\ o = [Closed c] /\ unserved tw c.
Proof.
  change 1000000000 with second.
  intros Hc H Hk Ht. eapply C50_ends; eauto. unfold second in *.
  assert (s * 3 / 2 * 1000000000 <= s * 1000000000 + s * 1000000000 / 2) by lia. lia.
Qed.
Print Assumptions C50_silent_client.
Definition ex_keepalive (id : string) (s : N) : connect_packet :=
  Mk_connect_packet V5 (Mk_connect_flags false false false AtMostOnce true true) s None
    (Mk_connect_payload (str id) None (Some (str "gone")) (Some (str "x")) None None).
Definition ex_history (s : N) : list (N * timed_event) :=
  [(7 * second, TEvent (ex_first 1 (ex_keepalive "a" s))); (8 * second, TEvent (EPacket 1 PingReq)); (8 * second + 5, TTimer 1)].
Example C50_ex : live ex_open (ex_history 5) 1 (ex_keepalive "a" 5) (8 * second) /\ clock_ok (ex_history 5)
  /\ interval (ex_keepalive "a" 5) 5
  /\ snd (tstep ex_open (tstate ex_open (ex_history 5)) (14 * second, TTimer 1)) = []
  /\ snd (tstep ex_open (tstate ex_open (ex_history 5)) (15 * second, TTimer 1)) = [Closed 1].
Proof.
  split. { exists [], (7 * second). do 3 eexists. split; [reflexivity|]. split; [reflexivity|]. split; [|vm_compute; reflexivity].
    intros [|e1 [|e2 [|e3 p]]] q E; try (injection E); intros; subst; try discriminate; vm_compute; discriminate. }
  split; [repeat constructor|]. split; [repeat split; cbn; lia|]. split; vm_compute; reflexivity.
Qed.
(** The full claim is false for an interval of one second: the broker's timeout is one second too,
    so a client that sends a packet every second is cut off when the timer is looked at first. *)
Theorem C50_one_second_refuted : exists h c k t0 t, clock_ok h /\ live ex_open h c k t0 /\ interval k 1
  /\ t = t0 + 1 * second /\ snd (tstep ex_open (tstate ex_open h) (t, TTimer c)) = [Closed c].
Proof.
  exists (ex_history 1), 1%nat, (ex_keepalive "a" 1), (8 * second), (9 * second). split; [repeat constructor|].
  split. { exists [], (7 * second). do 3 eexists. split; [reflexivity|]. split; [reflexivity|]. split; [|vm_compute; reflexivity].
    intros [|e1 [|e2 [|e3 p]]] q E; try (injection E); intros; subst; try discriminate; vm_compute; discriminate. }
  split; [repeat split; cbn; lia|]. split; vm_compute; reflexivity.
Qed.
Print Assumptions C50_one_second_refuted.

(** ** An interval of zero *)
(** The full claim is false for zero: once the clock shows a second, the first packet the broker
    handles for such a client makes the connection's task panic. The packet is handled and
    answered ([w'], [o]); then the connection is gone and the will stays unpublished. *)
Theorem C50_zero_refuted cfg h c k t0 t p w' o : live cfg h c k t0 -> c_keepalive k = 0 -> second <= t ->
  step cfg (tw_world (tstate cfg h)) (EPacket c p) = (w', o) -> ~ not_served w' c ->
  exists tw, tstep cfg (tstate cfg h) (t, TEvent (EPacket c p)) = (tw, o ++ [Crashed c]) /\ unserved tw c
    /\ w_heap (tw_world tw) = w_heap w' /\ w_broker (tw_world tw) = w_broker w' /\ w_manager (tw_world tw) = w_manager w'.
Proof.
  intros H Hk Ht Hst Hs. destruct (live_timer _ _ _ _ _ H) as (x & Hx & _). rewrite Hk in Hx. cbn [tstep]. rewrite Hst.
  unfold not_served in Hs. destruct (aget Nat.eqb c (w_conns w')) eqn:Ew; [|congruence]. rewrite Hx.
  assert (E : reset_deadline t (timeout_duration 0) = Panic).
  { unfold reset_deadline, checked_add. replace (_ <=? _) with false; [reflexivity|]. symmetry. apply N.leb_gt.
    assert (1 <= t / second) by (apply N.div_le_lower_bound; [discriminate|lia]).
    change i64_max with 9223372036854775807. change (timeout_duration 0) with 9223372036854775807. lia. }
  rewrite E. eexists. split; [reflexivity|]. split; [|repeat split]. unfold unserved, not_served. cbn. apply aget_del_same, nateqb_spec.
Qed.
Print Assumptions C50_zero_refuted.
Example C50_zero_ex : let h := [(7 * second, TEvent (ex_first 1 (ex_keepalive "a" 0)))] in
  live ex_open h 1 (ex_keepalive "a" 0) (7 * second) /\
  ~ not_served (fst (step ex_open (tw_world (tstate ex_open h)) (ex_sub 1 "t"))) 1 /\
  exists x, snd (tstep ex_open (tstate ex_open h) (8 * second, TEvent (ex_sub 1 "t"))) = [Sent 1 (SubAck x); Crashed 1].
Proof.
  split. { exists [], (7 * second). do 3 eexists. split; [reflexivity|]. split; [reflexivity|]. split; [|vm_compute; reflexivity].
    intros [|e p] q E; try discriminate. }
  split; [vm_compute; discriminate|]. eexists. vm_compute. reflexivity.
Qed.
(** What holds: the timer itself does nothing for 30 years. *)
Theorem C50_zero_timer_partial cfg h c k t0 t : live cfg h c k t0 -> c_keepalive k = 0 ->
  t < t0 + 30 * 365 * 86400 * 1000000000 -> tstep cfg (tstate cfg h) (t, TTimer c) = (tstate cfg h, []).
Proof.
  change 1000000000 with second.
  intros H Hk Ht. destruct (live_timer _ _ _ _ _ H) as (x & Hx & _ & q & -> & Hq). rewrite Hk in *. cbn [tstep]. rewrite Hx.
  replace (_ <=? t) with false; [reflexivity|]. symmetry. apply N.leb_gt. change (timeout_duration 0) with 9223372036854775807 in Hq.
  unfold second in *. destruct Hq; lia.
Qed.
Print Assumptions C50_zero_timer_partial.

(** ** The other theorems about the broker *)
(** [es] is [h] without the clock: a timer that has run out ends the connection, others do nothing. *)
Inductive untimed : list (N * timed_event) -> list event -> Prop :=
| un_nil : untimed [] []
| un_event t e h es : untimed h es -> untimed ((t, TEvent e) :: h) (e :: es)
| un_out t c h es : untimed h es -> untimed ((t, TTimer c) :: h) (EEnd c :: es)
| un_not t c h es : untimed h es -> untimed ((t, TTimer c) :: h) es.
(** Every client asks for an interval other than zero. *)
Definition intervals_ok (h : list (N * timed_event)) : Prop :=
  forall t c k u a, In (t, TEvent (EFirst c (Some (Connect k)) u a)) h -> 0 < c_keepalive k <= 65535.
Lemma untimed_run cfg h : forall tw, clock_ok h -> intervals_ok h ->
  (forall c d x, aget Nat.eqb c (tw_timers tw) = Some (d, x) -> d <= 98302) ->
  exists es, untimed h es /\ run cfg es (tw_world tw) = (tw_world (fst (trun cfg h tw)), snd (trun cfg h tw)).
Proof.
  induction h as [|[t te] h IH]; intros tw Hc Hi Ht; [exists []; split; [constructor|reflexivity]|].
  inversion Hc as [|? ? Hct Hch]; subst. cbn [fst] in Hct.
  assert (Hih : intervals_ok h) by (intros t' c k u a Hin; eapply Hi; right; exact Hin).
  assert (Hone : (exists e, (te = TEvent e \/ exists c, te = TTimer c /\ e = EEnd c) /\
       step cfg (tw_world tw) e = (tw_world (fst (tstep cfg tw (t, te))), snd (tstep cfg tw (t, te))))
     \/ (exists c, te = TTimer c) /\ tstep cfg tw (t, te) = (tw, [])).
  { destruct te as [e|c].
    - left. exists e. split; [auto|]. unfold tstep. destruct e as [c first u a|c p|c f|c|c|];
        destruct (step cfg (tw_world tw) _) as [w' o]; try reflexivity.
      + destruct first as [[]|]; try reflexivity. destruct (aget Nat.eqb c (w_conns (tw_world tw))); try reflexivity.
        destruct (aget Nat.eqb c (w_conns w')); reflexivity.
      + destruct (aget Nat.eqb c (w_conns w')); try reflexivity. destruct (aget Nat.eqb c (tw_timers tw)) as [[d x]|] eqn:E; try reflexivity.
        unfold reset_deadline. rewrite checked_add_ok by (eauto). reflexivity.
    - unfold tstep. destruct (aget Nat.eqb c (tw_timers tw)) as [[d x]|]; [|right; eauto]. destruct (x <=? t); [|right; eauto].
      left. exists (EEnd c). split; [eauto|]. destruct (step cfg (tw_world tw) (EEnd c)); reflexivity. }
  assert (Htim : forall c d x, aget Nat.eqb c (tw_timers (fst (tstep cfg tw (t, te)))) = Some (d, x) -> d <= 98302).
  { intros c d x Hd. unfold tstep in Hd. destruct te as [[c' first u a|c' p|c' f|c'|c'|]|c'].
    - destruct (step cfg (tw_world tw) _) as [w' o]. destruct first as [pk|]; [|eauto]. destruct pk; eauto.
      destruct (aget Nat.eqb c' (w_conns (tw_world tw))); [eauto|]. destruct (aget Nat.eqb c' (w_conns w')); [|eauto].
      cbn [fst tw_timers] in Hd. rewrite (aget_aput _ nateqb_spec) in Hd. destruct (Nat.eqb c c'); [|eauto]. injection Hd as <- _.
      apply timeout_small. eapply Hi. left. reflexivity.
    - destruct (step cfg (tw_world tw) _) as [w' o]. destruct (aget Nat.eqb c' (w_conns w')); [|eauto].
      destruct (aget Nat.eqb c' (tw_timers tw)) as [[d' x']|] eqn:E; [|eauto]. destruct (reset_deadline t d'); cbn [fst tw_timers] in Hd; eauto.
      rewrite (aget_aput _ nateqb_spec) in Hd. destruct (Nat.eqb c c'); [|eauto]. injection Hd as <- _. eauto.
    - destruct (step cfg (tw_world tw) _) as [w' o]. eauto.
    - destruct (step cfg (tw_world tw) _) as [w' o]. eauto.
    - destruct (step cfg (tw_world tw) _) as [w' o]. eauto.
    - destruct (step cfg (tw_world tw) _) as [w' o]. eauto.
    - destruct (aget Nat.eqb c' (tw_timers tw)) as [[d' x']|]; [|eauto]. destruct (x' <=? t); [|eauto].
      destruct (step cfg (tw_world tw) _) as [w' o]. eauto. }
  destruct (tstep cfg tw (t, te)) as [tw1 o1] eqn:Es. cbn [fst snd] in *.
  destruct (IH tw1 Hch Hih Htim) as (es & Hu & Hr). cbn [trun]. rewrite Es.
  destruct (trun cfg h tw1) as [tw2 o2]. cbn [fst snd] in *.
  destruct Hone as [(e & He & Hst)|[[c ->] Hno]].
  - exists (e :: es). split; [destruct He as [->|(c & -> & ->)]; constructor; exact Hu|]. cbn [run]. rewrite Hst, Hr. reflexivity.
  - exists es. split; [apply un_not, Hu|]. injection Hno as -> ->. exact Hr.
Qed.
(** As long as no client asks for an interval of zero, a broker with a clock does what the broker of
    Server.v does for some history without clock: every theorem about Server.v applies to it. *)
Theorem C50_untimed cfg h : clock_ok h -> intervals_ok h ->
  exists es, untimed h es /\ run cfg es world_new = (tw_world (tstate cfg h), snd (trun cfg h timed_world_new)).
Proof. intros Hc Hi. apply (untimed_run cfg h timed_world_new Hc Hi). intros c d x E. discriminate. Qed.
Print Assumptions C50_untimed.
Example C50_untimed_ex : clock_ok (ex_history 5 ++ [(99 * second, TTimer 1)]) /\ intervals_ok (ex_history 5 ++ [(99 * second, TTimer 1)])
  /\ unserved (tstate ex_open (ex_history 5 ++ [(99 * second, TTimer 1)])) 1.
Proof.
  split; [repeat constructor|]. split; [|vm_compute; reflexivity].
  intros t c k u a H. repeat (destruct H as [H|H]; [try discriminate; injection H as _ _ <-; cbn; lia|]). destruct H.
Qed.

(** The same with panics: a packet after which the deadline cannot be moved makes the task panic. *)
Inductive untimed_panics : list (N * timed_event) -> list event -> Prop :=
| up_nil : untimed_panics [] []
| up_event t e h es : untimed_panics h es -> untimed_panics ((t, TEvent e) :: h) (e :: es)
| up_panic t c k h es : untimed_panics h es -> untimed_panics ((t, TEvent (EPacket c k)) :: h) (EPacket c k :: EPanic c :: es)
| up_out t c h es : untimed_panics h es -> untimed_panics ((t, TTimer c) :: h) (EEnd c :: es)
| up_not t c h es : untimed_panics h es -> untimed_panics ((t, TTimer c) :: h) es.
Lemma untimed_panics_run cfg h : forall tw, wf (tw_world tw) ->
  exists es, untimed_panics h es /\ run cfg es (tw_world tw) = (tw_world (fst (trun cfg h tw)), snd (trun cfg h tw)).
Proof.
  induction h as [|[t te] h IH]; intros tw Hw; [exists []; split; [constructor|reflexivity]|].
  pose proof (tstep_wf cfg tw (t, te) Hw) as Hw1.
  assert (Hone : exists es1, (forall es, untimed_panics h es -> untimed_panics ((t, te) :: h) (es1 ++ es)) /\
       run cfg es1 (tw_world tw) = (tw_world (fst (tstep cfg tw (t, te))), snd (tstep cfg tw (t, te)))).
  { assert (Hr : forall e, run cfg [e] (tw_world tw) = step cfg (tw_world tw) e).
    { intros e. cbn [run]. destruct (step cfg (tw_world tw) e). rewrite app_nil_r. reflexivity. }
    destruct te as [e|c].
    - assert (Hsame : step cfg (tw_world tw) e = (tw_world (fst (tstep cfg tw (t, TEvent e))), snd (tstep cfg tw (t, TEvent e))) ->
        exists es1, (forall es, untimed_panics h es -> untimed_panics ((t, TEvent e) :: h) (es1 ++ es)) /\
         run cfg es1 (tw_world tw) = (tw_world (fst (tstep cfg tw (t, TEvent e))), snd (tstep cfg tw (t, TEvent e)))).
      { intros H. exists [e]. split; [intros; constructor; assumption|]. rewrite Hr. exact H. }
      destruct e as [c first u a|c p|c f|c|c|]; try (apply Hsame; unfold tstep; destruct (step cfg (tw_world tw) _) as [w' o]; reflexivity).
      + apply Hsame. unfold tstep. destruct (step cfg (tw_world tw) _) as [w' o].
        destruct first as [[]|]; try reflexivity. destruct (aget Nat.eqb c (w_conns (tw_world tw))); try reflexivity.
        destruct (aget Nat.eqb c (w_conns w')); reflexivity.
      + unfold tstep in *. destruct (step cfg (tw_world tw) (EPacket c p)) as [w' o] eqn:Es.
        destruct (aget Nat.eqb c (w_conns w')) as [i|] eqn:Ec; [|apply Hsame; reflexivity].
        destruct (aget Nat.eqb c (tw_timers tw)) as [[d x]|]; [|apply Hsame; reflexivity].
        destruct (reset_deadline t d); [apply Hsame; reflexivity| |];
          (exists [EPacket c p; EPanic c]; split; [intros; apply up_panic; assumption|]; cbn [run]; rewrite Es; cbn [step]; rewrite Ec;
           pose proof (step_wf _ _ _ _ _ Hw Es) as [_ Hw']; specialize (Hw' _ _ Ec);
           destruct (nth_error (w_heap w') i) eqn:Ei; [reflexivity|apply nth_error_None in Ei; lia]).
    - unfold tstep. destruct (aget Nat.eqb c (tw_timers tw)) as [[d x]|]; [destruct (x <=? t)|].
      + exists [EEnd c]. split; [intros; constructor; assumption|]. rewrite Hr. destruct (step cfg (tw_world tw) (EEnd c)); reflexivity.
      + exists []. split; [intros; constructor; assumption|reflexivity].
      + exists []. split; [intros; constructor; assumption|reflexivity]. }
  destruct Hone as (es1 & Hu1 & Hr1). destruct (IH (fst (tstep cfg tw (t, te))) Hw1) as (es & Hu & Hr).
  exists (es1 ++ es). split; [apply Hu1, Hu|].
  rewrite run_app, Hr1. cbn [fst snd]. rewrite Hr.
  cbn [trun fst snd]. destruct (tstep cfg tw (t, te)) as [tw1 o1]. cbn [fst snd]. destruct (trun cfg h tw1). reflexivity.
Qed.
(** Whatever intervals the clients ask for and whatever the clock says, a broker with a clock does what the broker of
    Server.v does for some history without clock, in which the task of a connection may panic after a packet. *)
Theorem C50_untimed_always cfg h :
  exists es, untimed_panics h es /\ run cfg es world_new = (tw_world (tstate cfg h), snd (trun cfg h timed_world_new)).
Proof. apply (untimed_panics_run cfg h timed_world_new). exact wf_new. Qed.
Print Assumptions C50_untimed_always.
