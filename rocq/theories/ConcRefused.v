(** A run without the connections that are never let in. *)
From Verif Require Import Base Utf8 Codec SpecCodec Tac CodecFacts Maps Topic Property PacketProps Packets TopicTree Storage Broker Auth
  Session SessionFacts Server SpecServer ServerFacts HandlerFacts HistoryFacts SessionFacts Network Conc SpecConc ConcFacts ConcNet SpecConcNet ConcNetFacts SpecRefused.

Section Refused.
Variable cfg : config.
Variable out : nat -> bool.

(** All that the handler of a connection that is not let in does. *)
Inductive refusing (c : nat) : code -> Prop :=
| rf_done : refusing c Finish
| rf_close : refusing c (Emit (Closed c) Finish)
| rf_refuse v : refusing c (Emit (Sent c (ConnAck (Mk_connack_packet v false BadUserNameOrPassword None))) (Emit (Closed c) Finish)).
Definition shut (x : conf) : Prop := forall c, out c = true ->
  aget Nat.eqb c (w_conns (cn_world x)) = None /\ forall k, aget Nat.eqb c (cn_tasks x) = Some k -> refusing c k.
(** [y] is [x] without the tasks of [out]. *)
Record bare (x y : conf) : Prop := {
  br_world : cn_world y = cn_world x;
  br_locks : cn_locks y = cn_locks x;
  br_readers : cn_readers y = cn_readers x;
  br_tasks : forall c, out c = false -> aget Nat.eqb c (cn_tasks y) = aget Nat.eqb c (cn_tasks x);
  br_out : forall c, out c = true -> aget Nat.eqb c (cn_tasks y) = None
}.
Lemma shut_on st : shut (conf_on st).
Proof. intros c _. split; [reflexivity|discriminate]. Qed.
Lemma bare_on st : bare (conf_on st) (conf_on st).
Proof. constructor; auto. Qed.

Lemma apply_conns c o w d : d <> c -> aget Nat.eqb d (w_conns (apply c o w)) = aget Nat.eqb d (w_conns w).
Proof.
  intros H. destruct o; try reflexivity; cbn [apply].
  - unfold set_conns. cbn. apply (aget_put_other _ nateqb_spec). auto.
  - unfold set_conns. cbn. apply (aget_del_other _ nateqb_spec). auto.
Qed.
Lemma refusing_handler c e : event_conn e = c -> (forall k u a, e = EFirst c (Some (Connect k)) u a -> ~ accepts cfg k) -> refusing c (handler cfg None e).
Proof.
  intros <- H. destruct e as [c f u a| | | | |]; try constructor. cbn [handler event_conn] in *. destruct f as [k|]; [|constructor].
  destruct k as [p0| | | | | | | | | | | | | |]; try constructor. specialize (H _ _ _ eq_refl). unfold connect_code.
  destruct (authenticated cfg p0) eqn:E; [apply authenticated_iff in E; contradiction|]. constructor.
Qed.

(** A step of a connection in [out] is no step without it. *)
Lemma step_out x y m x1 i : mstep cfg x m = Some (x1, i) -> out (item_of i) = true ->
  (forall k u a, i = IStart (EFirst (item_of i) (Some (Connect k)) u a) -> ~ accepts cfg k) -> shut x -> bare x y ->
  shut x1 /\ bare x1 y /\ (forall c o, i = IStep c o -> exists q, o = OOut q /\ refusal c q).
Proof.
  intros Hs Ho Hi Hx Hb. apply mstep_inv in Hs.
  destruct Hs as [(e & -> & -> & He & Hn & ->)|[(d & -> & -> & Hk & ->)|(d & k & o & k1 & -> & -> & Hk & Hn & _ & ->)]]; cbn [item_of] in *.
  - destruct (Hx _ Ho) as [Hc _]. split; [|split; [|discriminate]].
    + intros c Hc'. cbn [cn_world cn_tasks]. destruct (Hx _ Hc') as [H1 H2]. split; [exact H1|]. intros k.
      destruct (Nat.eq_dec c (event_conn e)) as [->|N].
      * rewrite (aget_put_same _ nateqb_spec), Hc. intros [= <-]. apply refusing_handler; [reflexivity|]. intros k u a E. apply (Hi k u a). rewrite <- E. reflexivity.
      * rewrite (aget_put_other _ nateqb_spec) by auto. apply H2.
    + destruct Hb as [B1 B2 B3 B4 B5]. constructor; cbn [cn_world cn_locks cn_readers cn_tasks]; auto. intros c Hc'.
      rewrite (aget_put_other _ nateqb_spec) by congruence. auto.
  - split; [|split; [|discriminate]].
    + intros c Hc'. cbn [cn_world cn_tasks]. destruct (Hx _ Hc') as [H1 H2]. split; [exact H1|]. intros k.
      destruct (Nat.eq_dec c d) as [->|N]; [rewrite (aget_del_same _ nateqb_spec); discriminate|]. rewrite (aget_del_other _ nateqb_spec) by auto. apply H2.
    + destruct Hb as [B1 B2 B3 B4 B5]. constructor; cbn [cn_world cn_locks cn_readers cn_tasks]; auto. intros c Hc'.
      rewrite (aget_del_other _ nateqb_spec) by congruence. auto.
  - destruct (Hx _ Ho) as [Hc Hr]. specialize (Hr _ Hk).
    assert (Hq : refusing d k1 /\ exists q, o = OOut q /\ refusal d q).
    { inversion Hr; subst; cbn [next] in Hn; [discriminate| |]; injection Hn as <- <-; (split; [constructor|]); eexists; (split; [reflexivity|]); [left|right; eexists]; reflexivity. }
    destruct Hq as (Hk1 & q & -> & Hq). split; [|split].
    + intros c Hc'. cbn [cn_world cn_tasks apply]. destruct (Hx _ Hc') as [H1 H2]. split; [exact H1|]. intros k'.
      destruct (Nat.eq_dec c d) as [->|N]; [rewrite (aget_put_same _ nateqb_spec); intros [= <-]; exact Hk1|]. rewrite (aget_put_other _ nateqb_spec) by auto. apply H2.
    + destruct Hb as [B1 B2 B3 B4 B5]. constructor; cbn [cn_world cn_locks cn_readers cn_tasks apply relock reread]; auto. intros c Hc'.
      rewrite (aget_put_other _ nateqb_spec) by congruence. auto.
    + intros c o E. injection E as <- <-. eauto.
Qed.
(** Any other step is possible without them. *)
Lemma step_in x y m x1 i : mstep cfg x m = Some (x1, i) -> out (item_of i) = false -> shut x -> bare x y ->
  exists y1, mstep cfg y m = Some (y1, i) /\ shut x1 /\ bare x1 y1.
Proof.
  intros Hs Ho Hx Hb. pose proof Hs as Hs0. apply mstep_inv in Hs. destruct Hb as [B1 B2 B3 B4 B5].
  destruct Hs as [(e & -> & -> & He & Hn & ->)|[(d & -> & -> & Hk & ->)|(d & k & o & k1 & -> & -> & Hk & Hn & Hm & ->)]]; cbn [item_of] in *.
  - exists (Mk_conf (cn_world y) (aput Nat.eqb (event_conn e) (handler cfg (aget Nat.eqb (event_conn e) (w_conns (cn_world y))) e) (cn_tasks y)) (cn_locks y) (cn_readers y)).
    split. { destruct e; try congruence; cbn [mstep event_conn] in *; rewrite B4, Hn by exact Ho; reflexivity. }
    split.
    + intros c Hc. cbn [cn_world cn_tasks]. destruct (Hx _ Hc) as [H1 H2]. split; [exact H1|]. intros k. rewrite (aget_put_other _ nateqb_spec) by congruence. apply H2.
    + constructor; cbn [cn_world cn_locks cn_readers cn_tasks]; auto; intros c Hc.
      * rewrite B1. destruct (Nat.eq_dec c (event_conn e)) as [->|N]; [rewrite !(aget_put_same _ nateqb_spec); reflexivity|].
        rewrite !(aget_put_other _ nateqb_spec) by auto. auto.
      * rewrite (aget_put_other _ nateqb_spec) by congruence. auto.
  - exists (Mk_conf (cn_world y) (adel Nat.eqb d (cn_tasks y)) (cn_locks y) (cn_readers y)).
    split. { cbn [mstep]. rewrite B4, Hk by exact Ho. reflexivity. }
    split.
    + intros c Hc. cbn [cn_world cn_tasks]. destruct (Hx _ Hc) as [H1 H2]. split; [exact H1|]. intros k. rewrite (aget_del_other _ nateqb_spec) by congruence. apply H2.
    + constructor; cbn [cn_world cn_locks cn_readers cn_tasks]; auto; intros c Hc.
      * destruct (Nat.eq_dec c d) as [->|N]; [rewrite !(aget_del_same _ nateqb_spec); reflexivity|].
        rewrite !(aget_del_other _ nateqb_spec) by auto. auto.
      * rewrite (aget_del_other _ nateqb_spec) by congruence. auto.
  - exists (Mk_conf (apply d o (cn_world y)) (aput Nat.eqb d k1 (cn_tasks y)) (relock d o (cn_locks y)) (reread d o (cn_readers y))).
    split.
    { cbn [mstep]. rewrite B4, Hk by exact Ho. rewrite B1, Hn.
      assert (Hm' : may d o y = true) by (rewrite <- Hm; unfold may, free_for; rewrite B2, B3; reflexivity). rewrite Hm'.
      destruct k; try reflexivity. discriminate. }
    split.
    + intros c Hc. cbn [cn_world cn_tasks]. destruct (Hx _ Hc) as [H1 H2]. rewrite apply_conns by congruence. split; [exact H1|].
      intros k'. rewrite (aget_put_other _ nateqb_spec) by congruence. apply H2.
    + constructor; cbn [cn_world cn_locks cn_readers cn_tasks]; try congruence; intros c Hc.
      * destruct (Nat.eq_dec c d) as [->|N]; [rewrite !(aget_put_same _ nateqb_spec); reflexivity|].
        rewrite !(aget_put_other _ nateqb_spec) by auto. auto.
      * rewrite (aget_put_other _ nateqb_spec) by congruence. auto.
Qed.

Lemma refused_runs x tr x' : mruns cfg x tr x' -> forall y, shut x -> bare x y -> (forall c, out c = true -> never_let_in cfg c tr) ->
  shut x' /\ (forall c o, out c = true -> In (IStep c o) tr -> exists q, o = OOut q /\ refusal c q)
  /\ exists y', mruns cfg y (without out tr) y' /\ bare x' y'.
Proof.
  induction 1 as [x|x m x1 i tr x2 Hs H IH]; intros y Hx Hb Hn.
  - split; [exact Hx|]. split; [intros c o _ []|]. exists y. split; [constructor|exact Hb].
  - assert (Hn' : forall c, out c = true -> never_let_in cfg c tr) by (intros c Hc k u a Hi; apply (Hn c Hc k u a); right; exact Hi).
    unfold without. cbn [filter]. destruct (out (item_of i)) eqn:Ho; cbn [negb].
    + destruct (step_out x y _ _ _ Hs Ho) as (H1 & H2 & H3); auto. { intros k u a E. eapply (Hn _ Ho k u a). left. exact E. }
      destruct (IH y H1 H2 Hn') as (I1 & I2 & I3). split; [exact I1|]. split; [|exact I3]. intros c o Hc [E|Hi]; eauto.
    + destruct (step_in x y _ _ _ Hs Ho Hx Hb) as (y1 & H1 & H2 & H3). destruct (IH y1 H2 H3 Hn') as (I1 & I2 & y' & I3 & I4). split; [exact I1|].
      split. { intros c o Hc [E|Hi]; [subst i; cbn in Ho; congruence|eauto]. }
      exists y'. split; [|exact I4]. econstructor; eauto.
Qed.

(** ** The same with bytes *)
Variable p : profile.
Definition nbare (n n' : bnet) : Prop := bare (bn_conf n) (bn_conf n') /\ forall c, out c = false -> bn_tasks n' c = bn_tasks n c.
Lemma mstep_conn x m x1 i : mstep cfg x m = Some (x1, i) -> item_of i = match m with MStart e => event_conn e | MGo c => c end.
Proof. intros H. apply mstep_inv in H. destruct H as [(e & -> & -> & _)|[(d & -> & -> & _)|(d & k & o & k1 & -> & -> & _)]]; reflexivity. Qed.
Lemma first_event_conn c o u a : event_conn (first_event c o u a) = c.
Proof. destruct o; reflexivity. Qed.
Lemma next_event_conn c o : event_conn (next_event c o) = c.
Proof. destruct o; reflexivity. Qed.
Lemma put_task_other c d t ts : d <> c -> put_task c t ts d = ts d.
Proof. intros H. unfold put_task. destruct (Nat.eqb_spec d c); congruence. Qed.
Lemma bstart_inv n e ts n1 is : bstart cfg n e ts = Some (n1, is) ->
  bn_tasks n1 = ts /\ exists i, is = [i] /\ mstep cfg (bn_conf n) (MStart e) = Some (bn_conf n1, i) /\ item_of i = event_conn e.
Proof.
  unfold bstart. destruct (mstep cfg (bn_conf n) (MStart e)) as [[x i]|] eqn:E; [|discriminate]. intros [= <- <-]. split; [reflexivity|].
  exists i. repeat split; auto. exact (mstep_conn _ _ _ _ E).
Qed.
Lemma bstep_shape n m n1 is c : bstep cfg p n m = Some (n1, is) -> move_of m = Some c ->
  (forall d, d <> c -> bn_tasks n1 d = bn_tasks n d) /\
  ((is = [] /\ bn_conf n1 = bn_conf n) \/ exists mm i, is = [i] /\ mstep cfg (bn_conf n) mm = Some (bn_conf n1, i) /\ item_of i = c).
Proof.
  destruct m as [[d bs|d u a|d f|d|]|d]; cbn [bstep move_of]; try discriminate; intros Hs [= ->].
  - injection Hs as <- <-. split; [intros d Hd; apply put_task_other, Hd|left; auto].
  - destruct (busy c n); [discriminate|].
    destruct (tk_phase (bn_tasks n c)); [| |discriminate];
    (destruct (poll_read p (tk_buf (bn_tasks n c)) (tk_inbox (bn_tasks n c))) as [[[r|] b] cs];
     [apply bstart_inv in Hs; destruct Hs as (Ht & i & -> & Hm & Hi); rewrite Ht; (split; [intros d Hd; apply put_task_other, Hd|]); right; do 2 eexists;
      repeat split; [exact Hm|rewrite Hi; first [apply first_event_conn|apply next_event_conn]]
     |injection Hs as <- <-; split; [intros d Hd; apply put_task_other, Hd|left; auto]]).
  - destruct (tk_phase (bn_tasks n c)); try discriminate. apply bstart_inv in Hs. destruct Hs as (Ht & i & -> & Hm & Hi). rewrite Ht. split; [auto|]. right. eauto 6.
  - destruct (tk_phase (bn_tasks n c)); try discriminate. apply bstart_inv in Hs. destruct Hs as (Ht & i & -> & Hm & Hi). rewrite Ht.
    split; [intros d Hd; apply put_task_other, Hd|]. right. eauto 6.
  - destruct (mstep cfg (bn_conf n) (MGo c)) as [[x i]|] eqn:E; [|discriminate]. injection Hs as <- <-. cbn [bn_tasks bn_conf]. split.
    + intros d Hd. destruct i; auto. apply put_task_other, Hd.
    + right. exists (MGo c), i. repeat split; auto. exact (mstep_conn _ _ _ _ E).
Qed.
Lemma put_task_eq c t t' ts ts' d : t = t' -> ts d = ts' d -> put_task c t ts d = put_task c t' ts' d.
Proof. intros -> H. unfold put_task. destruct (Nat.eqb d c); auto. Qed.
Lemma bstart_in n n' e ts ts' n1 is : bstart cfg n e ts = Some (n1, is) -> out (event_conn e) = false -> shut (bn_conf n) -> nbare n n' ->
  (forall c, out c = false -> ts' c = ts c) -> exists n1', bstart cfg n' e ts' = Some (n1', is) /\ shut (bn_conf n1) /\ nbare n1 n1'.
Proof.
  intros Hs Ho Hx [Hb _] Ht. apply bstart_inv in Hs. destruct Hs as (Et & i & -> & Hm & Hi).
  destruct (step_in _ _ _ _ _ Hm ltac:(rewrite Hi; exact Ho) Hx Hb) as (y1 & H1 & H2 & H3).
  exists (Mk_bnet y1 ts'). unfold bstart. rewrite H1. split; [reflexivity|]. split; [exact H2|]. split; [exact H3|]. cbn [bn_tasks]. rewrite Et. exact Ht.
Qed.
Lemma bstep_in n n' m n1 is c : bstep cfg p n m = Some (n1, is) -> move_of m = Some c -> out c = false -> shut (bn_conf n) -> nbare n n' ->
  exists n1', bstep cfg p n' m = Some (n1', is) /\ shut (bn_conf n1) /\ nbare n1 n1'.
Proof.
  intros Hs Hm Ho Hx Hb. pose proof Hb as [Hb1 Hb2]. pose proof (Hb2 c Ho) as Hc.
  destruct m as [[d bs|d u a|d f|d|]|d]; cbn [bstep move_of] in *; try discriminate; injection Hm as ->.
  - injection Hs as <- <-. rewrite Hc. eexists. split; [reflexivity|]. split; [exact Hx|]. split; [exact Hb1|]. cbn [bn_tasks].
    intros d Hd. apply put_task_eq; auto.
  - replace (busy c n') with (busy c n) by (unfold busy; rewrite (br_tasks _ _ Hb1 _ Ho); reflexivity). rewrite Hc.
    destruct (busy c n); [discriminate|].
    destruct (tk_phase (bn_tasks n c)); [| |discriminate];
    (destruct (poll_read p (tk_buf (bn_tasks n c)) (tk_inbox (bn_tasks n c))) as [[[r|] b] cs];
     [eapply bstart_in; [exact Hs|first [rewrite first_event_conn|rewrite next_event_conn]; exact Ho|exact Hx|exact Hb|];
      intros d Hd; apply put_task_eq; auto
     |injection Hs as <- <-; eexists; split; [reflexivity|]; split; [exact Hx|]; split; [exact Hb1|]; cbn [bn_tasks]; intros d Hd; apply put_task_eq; auto]).
  - rewrite Hc. destruct (tk_phase (bn_tasks n c)); try discriminate. eapply bstart_in; eauto.
  - rewrite Hc. destruct (tk_phase (bn_tasks n c)); try discriminate. eapply bstart_in; [exact Hs|exact Ho|exact Hx|exact Hb|].
    intros d Hd. apply put_task_eq; auto.
  - destruct (mstep cfg (bn_conf n) (MGo c)) as [[x i]|] eqn:E; [|discriminate]. injection Hs as <- <-.
    destruct (step_in _ _ _ _ _ E ltac:(rewrite (mstep_conn _ _ _ _ E); exact Ho) Hx Hb1) as (y1 & H1 & H2 & H3). rewrite H1. eexists. split; [reflexivity|].
    split; [exact H2|]. split; [exact H3|]. cbn [bn_tasks]. intros d Hd. destruct i; auto. apply put_task_eq; auto. rewrite Hc, (br_world _ _ H3). reflexivity.
Qed.
Lemma refused_bruns n ms tr n1 : bruns cfg p n ms tr n1 -> forall n', shut (bn_conf n) -> nbare n n' -> (forall c, out c = true -> never_let_in cfg c tr) ->
  exists n1', bruns cfg p n' (unmoved out ms) (without out tr) n1' /\ nbare n1 n1'.
Proof.
  induction 1 as [n|n m n1 is ms tr n2 Hs H IH]; intros n' Hx Hb Hn.
  - exists n'. split; [constructor|exact Hb].
  - assert (Hn' : forall c, out c = true -> never_let_in cfg c tr) by (intros c Hc k u a Hi; apply (Hn c Hc k u a); apply in_or_app; right; exact Hi).
    destruct (move_of m) as [c|] eqn:Em; [|destruct m as [[]|]; discriminate].
    destruct (bstep_shape _ _ _ _ _ Hs Em) as [Hother Hshape]. unfold unmoved. cbn [filter]. rewrite Em.
    unfold without. rewrite filter_app. fold (without out tr). fold (unmoved out ms). destruct (out c) eqn:Ho; cbn [negb].
    + assert (Hx1 : shut (bn_conf n1) /\ nbare n1 n' /\ filter (fun i => negb (out (item_of i))) is = []).
      { destruct Hb as [Hb1 Hb2]. assert (Ht : forall d, out d = false -> bn_tasks n' d = bn_tasks n1 d).
        { intros d Hd. rewrite Hother by congruence. auto. }
        destruct Hshape as [[-> Hc]|(mm & i & -> & Hm & Hi)]; [unfold nbare; rewrite Hc; exact (conj Hx (conj (conj Hb1 Ht) eq_refl))|].
        destruct (step_out _ (bn_conf n') _ _ _ Hm ltac:(rewrite Hi; exact Ho)) as (H1 & H2 & _); auto.
        { intros k u a E. rewrite Hi in E. eapply (Hn _ Ho k u a). left. exact E. }
        split; [exact H1|]. split; [split; [exact H2|exact Ht]|]. cbn [filter]. rewrite Hi, Ho. reflexivity. }
      destruct Hx1 as (H1 & H2 & ->). exact (IH _ H1 H2 Hn').
    + destruct (bstep_in _ _ _ _ _ _ Hs Em Ho Hx Hb) as (n1' & H1 & H2 & H3). destruct (IH _ H2 H3 Hn') as (n2' & I1 & I2).
      exists n2'. split; [|exact I2].
      replace (filter (fun i => negb (out (item_of i))) is) with is; [econstructor; eauto|].
      destruct Hshape as [[-> _]|(mm & i & -> & _ & Hi)]; [reflexivity|]. cbn [filter]. rewrite Hi, Ho. reflexivity.
Qed.
Lemma nbare_on st : nbare (bnet_on st) (bnet_on st).
Proof. split; [apply bare_on|reflexivity]. Qed.
End Refused.
