(** Property C127: what the CONNACK says about an earlier session, while handlers interleave and the broker stops and starts.
    Every theorem is followed by a concrete case meeting its hypotheses. *)
From Coq Require Import String.
From Verif Require Import Base Utf8 Codec SpecCodec Tac CodecFacts Str Maps Topic SpecTopic TopicFacts Property PacketProps Packets
  TopicTree TreeFacts Storage StorageFacts Broker Auth Session Server SpecServer SessionFacts ServerFacts HandlerFacts HistoryFacts
  ResumeFacts Conc SpecConc ConcFacts ConcLocks ConcRoute ConcOwn ConcProv SpecDurable ConcStore SpecLives ConcLives SpecUnsub ConcUnsub ConcAnew
  SpecAcked ConcPresent ConcReturn SpecRefused ConcRefused Examples Properties_Routing Properties_Conc Properties_Provenance Properties_Durable Properties_Unsub Properties_Acked Properties_Anew Properties_Refused.
Local Open Scope list_scope.

(** In the life [tr] connection [c] sends the CONNECT [k], and is answered with the CONNACK [a] before [rest]. *)
Definition connacked (c : nat) (k : connect_packet) (a : connack_packet) (pre mid rest tr : list item) : Prop := exists u w,
  tr = pre ++ IStart (EFirst c (Some (Connect k)) u w) :: mid ++ rest
  /\ (forall e, In (IStart e) mid -> event_conn e <> c) /\ In (IStep c (OOut (Sent c (ConnAck a)))) mid.

(** Connection [c] comes with a CONNECT that the broker has to accept. *)
Definition was_let_in (cfg : config) (c : nat) (tr : list item) : Prop := exists k u a, In (IStart (EFirst c (Some (Connect k)) u a)) tr /\ accepts cfg k.
Lemma let_in_or_not cfg c tr : {b : bool | if b then never_let_in cfg c tr else was_let_in cfg c tr}.
Proof.
  induction tr as [|i tr [b IH]]; [exists true; intros k u a []|].
  assert (Hi : (exists k u a, i = IStart (EFirst c (Some (Connect k)) u a) /\ accepts cfg k) + (forall k u a, i = IStart (EFirst c (Some (Connect k)) u a) -> ~ accepts cfg k)).
  { destruct i as [[d [[k| | | | | | | | | | | | | |]|] u a|d k|d g|d|d|]|d o|d]; try (right; discriminate). destruct (Nat.eq_dec d c) as [->|Hd]; [|right; intros; congruence].
    destruct (authenticated cfg k) eqn:E; [left; exists k, u, a; split; [reflexivity|apply authenticated_iff, E]|right; intros k' u' a' [= <- <- <-] Hk; apply authenticated_iff in Hk; congruence]. }
  destruct Hi as [Hi|Hi]; [exists false; destruct Hi as (k & u & a & -> & Hk); exists k, u, a; split; [left; reflexivity|exact Hk]|].
  exists b. destruct b; [intros k u a [E|Hin]; [apply (Hi _ _ _ E)|eapply IH; eauto]|destruct IH as (k & u & a & Hin & Hk); exists k, u, a; split; [right; exact Hin|exact Hk]].
Qed.
(** What is done for a connection, other than refusing it, is done after it has been let in. *)
Lemma done_let_in cfg st tr x c o : mruns cfg (conf_on st) tr x -> In (IStep c o) tr -> (forall q, o <> OOut q) -> was_let_in cfg c tr.
Proof. intros Hr Hi Ho. destruct (let_in_or_not cfg c tr) as [[|] H]; [|exact H]. destruct (C119_only_refused _ _ _ _ _ _ Hr H Hi) as (q & E & _). destruct (Ho _ E). Qed.
Lemma stored_let_in cfg trs st id s : lives cfg trs st -> mem_load_session id st = Some s -> exists n d tr, nth_error trs n = Some tr /\ named d id tr /\ was_let_in cfg d tr.
Proof.
  intros Hl Hs. set (outs := map (fun tr c => proj1_sig (let_in_or_not cfg c tr)) trs).
  assert (Ho : Forall2 (fun out tr => forall c, out c = true -> never_let_in cfg c tr) outs trs).
  { unfold outs. clear. induction trs as [|tr trs IH]; constructor; [|exact IH]. intros c. destruct (let_in_or_not cfg c tr) as [b Hb]. cbn. intros ->. exact Hb. }
  destruct (stored_bears _ _ _ _ _ (C119_over_lives _ _ _ _ Hl Ho) Hs) as (n & d & tr' & Hn & k & u & a & Hin & Hid). exists n, d.
  assert (Hc : combine outs trs = map (fun tr => (fun c => proj1_sig (let_in_or_not cfg c tr), tr)) trs) by (unfold outs; clear; induction trs as [|tr trs IH]; cbn; congruence).
  rewrite Hc, map_map in Hn. rewrite nth_error_map in Hn. destruct (nth_error trs n) as [tr|]; [|discriminate]. cbn in Hn. injection Hn as <-. exists tr. split; [reflexivity|].
  apply filter_In in Hin. destruct Hin as [Hin Hb]. cbn in Hb. destruct (let_in_or_not cfg d tr) as [b Hd]. cbn in Hb. destruct b; [discriminate|]. split; [exists k, u, a; auto|exact Hd].
Qed.

(** A client that is told that its session is there did not ask for a clean start. It has been let in before in this life, or
    somebody who came with its identifier has been let in in an earlier one. *)
Theorem C127_sound cfg trs st tr x c id k a pre mid rest :
  lives cfg trs st -> mruns cfg (conf_on st) tr x -> (forall d, Forall texts (events_of d tr)) -> owns c id tr ->
  connacked c k a pre mid rest tr -> ca_session_present a = true ->
  cf_clean_start (c_flags k) = false
  /\ ((exists k' u' w', In (IStart (EFirst c (Some (Connect k')) u' w')) pre /\ presented k' = id /\ accepts cfg k')
      \/ exists n d tr', nth_error trs n = Some tr' /\ named d id tr' /\ was_let_in cfg d tr').
Proof.
  intros Hl Hr Ht Ho (u & w & -> & Hmid & Ha) Hs. pose proof (lives_sane _ _ _ Hl) as Hsane.
  assert (Hp : presented k = id) by (apply (proj1 Ho); exists k, u, w; split; [apply in_or_app; right; left; reflexivity|left; reflexivity]).
  pose proof (owned_alone cfg _ x c id Hr Ht Ho mid) as Hal. specialize (Hal ltac:(intros i Hi; apply in_or_app; right; right; apply in_or_app; left; exact Hi)).
  pose proof Hr as Hr'. apply mruns_app in Hr'. destruct Hr' as (y0 & Hy0 & Hyx). inversion Hyx as [|? m y1 ? ? ? Hm Hr1]. subst. apply mruns_app in Hr1. destruct Hr1 as (y2 & Hy2 & _).
  apply mstep_inv in Hm. destruct Hm as [(e & -> & E & He & Hn & ->)|[(d & -> & E & _)|(d & k' & o & k1 & -> & E & _)]]; try discriminate. injection E as <-. cbn [event_conn] in *.
  destruct (aget Nat.eqb c (w_conns (cn_world y0))) as [i|] eqn:Ei.
  { exfalso. eapply idle_runs; [exact Hy2|exact Hmid| |exact Ha]. cbn [cn_tasks]. intros k'. rewrite (aget_aput Nat.eqb Nat.eqb_eq), Nat.eqb_refl. cbn [handler]. congruence. }
  set (told := fun (H : Prop) (o : output) => forall a, o = Sent c (ConnAck a) -> ca_session_present a = true -> H).
  assert (T0 : forall H o, (forall a, o <> Sent c (ConnAck a)) -> told H o) by (intros H o Hno a' E; destruct (Hno _ E)).
  assert (T1 : forall H a, ca_session_present a = false -> ca_reason_code a <> Success -> told H (Sent c (ConnAck a))) by (intros H a1 F _ a' E; injection E as <-; congruence).
  assert (T2 : forall H, says c (told H) false) by (intros H a1 F a' E; injection E as <-; congruence).
  split.
  - destruct (cf_clean_start (c_flags k)) eqn:Ec; [exfalso|reflexivity]. refine (answering_runs c (presented k) False (told False) cfg _ _ _ Hy2 Hal Hmid _ _ Ha a eq_refl Hs).
    intros k'. cbn [cn_tasks]. rewrite (aget_aput Nat.eqb Nat.eqb_eq), Nat.eqb_refl. intros E. injection E as <-. left. cbn [handler]. apply said_clean; auto.
  - match goal with |- ?z => set (H := z) end.
    assert (Hw : was_let_in cfg c pre -> H).
    { intros (k' & u' & w' & Hin & Hk). left. exists k', u', w'. split; [exact Hin|]. split; [|exact Hk]. apply (proj1 Ho). exists k', u', w'. split; [apply in_or_app; left; exact Hin|left; reflexivity]. }
    assert (Hd : forall d o, In (IStep d o) pre -> In (IStep d o) (pre ++ IStart (EFirst c (Some (Connect k)) u w) :: mid ++ rest)) by (intros; apply in_or_app; auto).
    refine (answering_runs c (presented k) H (told H) cfg _ _ _ Hy2 Hal Hmid _ _ Ha a eq_refl Hs).
    intros k'. cbn [cn_tasks cn_world]. rewrite (aget_aput Nat.eqb Nat.eqb_eq), Nat.eqb_refl. intros E. injection E as <-. right. split.
    + cbn [handler]. apply tells_connect; auto. intros h a1 _ a' _ _. exact h.
    + split.
      * intros j Hj. pose proof (own_runs _ _ _ _ Hy0 [] own_new) as Hi. destruct (oi_manager _ _ Hi _ _ Hj) as (d & s & Hn'). apply Hw.
        assert (d = c) as -> by (apply (proj2 Ho), came_named; eapply new_came; [exact Hr|apply Hd, Hn']). eapply done_let_in; [exact Hy0|exact Hn'|discriminate].
      * intros s Hld. destruct (stored_from _ _ _ _ _ _ Hy0 Hld) as [(s' & E)|(d & s' & r & Hn')]; [right; eapply stored_let_in; eauto|]. apply Hw.
        destruct (Nat.eq_dec d c) as [->|Hdc]; [eapply done_let_in; [exact Hy0|exact Hn'|discriminate]|]. destruct (nobody_else cfg _ x c _ Hr Ht Ho d _ (Hd _ _ Hn') Hdc) as [_ F]. destruct (F _ _ eq_refl). reflexivity.
Qed.
Print Assumptions C127_sound.
(** A client that has been let in before in this life, and comes back without clean start, is told that its session is there. *)
Theorem C127_complete cfg trs st tr x c id k0 a0 pre0 mid0 rest0 k a pre mid rest :
  lives cfg trs st -> mruns cfg (conf_on st) tr x -> (forall d, Forall texts (events_of d tr)) -> owns c id tr ->
  connacked c k0 a0 pre0 mid0 rest0 pre -> ca_reason_code a0 = Success ->
  connacked c k a pre mid rest tr -> ca_reason_code a = Success -> cf_clean_start (c_flags k) = false -> ca_session_present a = true.
Proof.
  intros Hl Hr Ht Ho (u0 & w0 & -> & Hmid0 & Ha0) Hs0 (u & w & -> & Hmid & Ha) Hs Hc. pose proof (lives_sane _ _ _ Hl) as Hsane.
  assert (Hfi : forall i, In i (pre0 ++ IStart (EFirst c (Some (Connect k0)) u0 w0) :: mid0 ++ rest0) -> In i ((pre0 ++ IStart (EFirst c (Some (Connect k0)) u0 w0) :: mid0 ++ rest0) ++ IStart (EFirst c (Some (Connect k)) u w) :: mid ++ rest)) by (intros; apply in_or_app; auto).
  assert (Hf : Forall (first_item c id) (mid0 ++ rest0)).
  { apply Forall_forall. intros i Hi k' u' a' ->. apply (proj1 Ho). exists k', u', a'. split; [apply Hfi; apply in_or_app; right; right; exact Hi|left; reflexivity]. }
  assert (Hp : presented k = id) by (apply (proj1 Ho); exists k, u, w; split; [apply in_or_app; right; left; reflexivity|left; reflexivity]).
  assert (Hp0 : presented k0 = id) by (apply (proj1 Ho); exists k0, u0, w0; split; [apply Hfi, in_or_app; right; left; reflexivity|left; reflexivity]).
  pose proof (owned_alone cfg _ x c id Hr Ht Ho mid) as Hal. specialize (Hal ltac:(intros i Hi; apply in_or_app; right; right; apply in_or_app; left; exact Hi)).
  pose proof (owned_alone cfg _ x c id Hr Ht Ho (mid0 ++ rest0)) as Hal0. specialize (Hal0 ltac:(intros i Hi; apply Hfi, in_or_app; right; right; exact Hi)).
  pose proof Hr as Hr'. apply mruns_app in Hr'. destruct Hr' as (y0 & Hy0 & Hyx). inversion Hyx as [|? m y1 ? ? ? Hm Hr1]. subst. apply mruns_app in Hr1. destruct Hr1 as (y2 & Hy2 & _).
  apply mruns_app in Hy0. destruct Hy0 as (z0 & _ & Hzx). inversion Hzx as [|? m0 z1 ? ? ? Hm0 Hz1]. subst.
  assert (Hth : there c (presented k) z1).
  { apply mstep_inv in Hm0. destruct Hm0 as [(e & -> & E & He & Hn & ->)|[(d & -> & E & _)|(d & k' & o & k1 & -> & E & _)]]; try discriminate. injection E as <-. cbn [event_conn] in *.
    apply mruns_app in Hz1. destruct Hz1 as (z2 & Hz2 & _). destruct (aget Nat.eqb c (w_conns (cn_world z0))) as [i|] eqn:Ei.
    { exfalso. eapply idle_runs; [exact Hz2|exact Hmid0| |exact Ha0]. cbn [cn_tasks]. intros k'. rewrite (aget_aput Nat.eqb Nat.eqb_eq), Nat.eqb_refl. cbn [handler]. congruence. }
    destruct (authenticated cfg k0) eqn:Eau.
    - exists false. split; [discriminate|]. cbn [cn_tasks]. rewrite (aget_aput Nat.eqb Nat.eqb_eq), Nat.eqb_refl. split; [|discriminate]. intros k' E. injection E as <-. cbn [handler]. apply hold_connect; auto.
    - exfalso. refine (only_runs (fun o => forall a, o = Sent c (ConnAck a) -> ca_reason_code a <> Success) c cfg _ _ _ Hz2 Hmid0 _ _ Ha0 a0 eq_refl Hs0). cbn [cn_tasks]. intros k'. rewrite (aget_aput Nat.eqb Nat.eqb_eq), Nat.eqb_refl. intros E. injection E as <-.
      cbn [handler]. unfold connect_code. rewrite Eau. cbn [negb only]. split; [intros a' E; injection E as <-; discriminate|]. split; [discriminate|exact I]. }
  apply (there_runs c (presented k) cfg _ _ _ Hz1 Hal0 Hf) in Hth. apply mstep_inv in Hm. destruct Hm as [(e & -> & E & He & Hn & ->)|[(d & -> & E & _)|(d & k' & o & k1 & -> & E & _)]]; try discriminate. injection E as <-. cbn [event_conn] in *.
  destruct (aget Nat.eqb c (w_conns (cn_world y0))) as [i|] eqn:Ei.
  { exfalso. eapply idle_runs; [exact Hy2|exact Hmid| |exact Ha]. cbn [cn_tasks]. intros k'. rewrite (aget_aput Nat.eqb Nat.eqb_eq), Nat.eqb_refl. cbn [handler]. congruence. }
  destruct Hth as (b & B1 & _ & B3). specialize (B1 (B3 Hn)). set (told := fun (o : output) => forall a, o = Sent c (ConnAck a) -> ca_reason_code a = Success -> ca_session_present a = true).
  refine (finding_runs c (presented k) told cfg _ _ _ Hy2 Hal Hmid _ _ Ha a eq_refl Hs). intros k'. cbn [cn_tasks cn_world]. rewrite (aget_aput Nat.eqb Nat.eqb_eq), Nat.eqb_refl. intros E. injection E as <-. cbn [handler].
  destruct (said_found c (presented k) told) with (cfg := cfg) (k := k) (u := u) (a := w) as [G|(l & K & G1 & G2)]; auto.
  - intros o Hno a' E. destruct (Hno _ E).
  - intros a1 _ F a' E. injection E as <-. contradiction.
  - intros a1 F a' E _. injection E as <-. exact F.
  - right. split; [exact B1|]. exists K. split; [right; exists l; exact G1|exact G2].
Qed.
Print Assumptions C127_complete.
(** A client whose CONNECT has been handled to its end is told so in later lives too, unless it asks for a clean start in between, wherever
    the broker stops. *)
Definition goes_on_cleanly (id : bytes) (tr : list item) : Prop := exists c, owns c id tr /\ no_clean_start c tr.
Theorem C127_complete_over_lives cfg trs st tr x c id k0 a0 pre0 mid0 rest0 st2 tr2 x2 d k a pre mid rest :
  lives cfg trs st -> mruns cfg (conf_on st) tr x -> (forall d, Forall texts (events_of d tr)) -> owns c id tr ->
  connacked c k0 a0 pre0 mid0 (IEnd c :: rest0) tr -> ca_reason_code a0 = Success -> no_clean_start c rest0 ->
  passes cfg (goes_on_cleanly id) (w_store (cn_world x)) st2 ->
  mruns cfg (conf_on st2) tr2 x2 -> (forall d, Forall texts (events_of d tr2)) -> owns d id tr2 ->
  connacked d k a pre mid rest tr2 -> no_clean_start d pre -> ca_reason_code a = Success -> cf_clean_start (c_flags k) = false -> ca_session_present a = true.
Proof.
  intros Hl Hr Ht Ho (u0 & w0 & -> & Hmid0 & Ha0) Hs0 Hn0 Hps Hr2 Ht2 Ho2 (u & w & -> & Hmid & Ha) Hn Hs Hc. pose proof (lv_more _ _ _ _ _ Hl Hr Ht) as Hl1. pose proof (lives_sane _ _ _ Hl) as Hsane.
  assert (Hsv : saved id (w_store (cn_world x))).
  { pose proof (owned_alone cfg _ x c id Hr Ht Ho) as Hal. pose proof (owned_on_own cfg _ x c id Hr Ht Ho) as Hon.
    assert (Hi1 : forall i, In i mid0 -> In i (pre0 ++ IStart (EFirst c (Some (Connect k0)) u0 w0) :: mid0 ++ IEnd c :: rest0)) by (intros i Hi; apply in_or_app; right; right; apply in_or_app; left; exact Hi).
    assert (Hi2 : forall i, In i rest0 -> In i (pre0 ++ IStart (EFirst c (Some (Connect k0)) u0 w0) :: mid0 ++ IEnd c :: rest0)) by (intros i Hi; apply in_or_app; right; right; apply in_or_app; right; right; exact Hi).
    pose proof Hr as Hr'. apply mruns_app in Hr'. destruct Hr' as (y0 & Hy0 & Hyx). inversion Hyx as [|? m y1 ? ? ? Hm Hr1]. subst. apply mruns_app in Hr1. destruct Hr1 as (y2 & Hy2 & Hr1). inversion Hr1 as [|? m' y3 ? ? ? Hm' Hr3]. subst.
    assert (Hn1 : no_clean_start c mid0) by (intros k' u' a' Hi; destruct (Hmid0 _ Hi eq_refl)).
    apply mstep_inv in Hm. destruct Hm as [(e & -> & E & He & Hn' & ->)|[(d' & -> & E & _)|(d' & k' & o & k1 & -> & E & _)]]; try discriminate. injection E as <-. cbn [event_conn] in *.
    destruct (aget Nat.eqb c (w_conns (cn_world y0))) as [i|] eqn:Ei.
    { exfalso. eapply idle_runs; [exact Hy2|exact Hmid0| |exact Ha0]. cbn [cn_tasks]. intros k'. rewrite (aget_aput Nat.eqb Nat.eqb_eq), Nat.eqb_refl. cbn [handler]. congruence. }
    assert (Hw0 : w0 = true).
    { destruct w0; [reflexivity|]. exfalso. refine (answering_runs c id False (fun o => forall a, o = Sent c (ConnAck a) -> ca_reason_code a <> Success) cfg _ _ _ Hy2 (Hal _ Hi1) Hmid0 _ _ Ha0 a0 eq_refl Hs0).
      intros k'. cbn [cn_tasks]. rewrite (aget_aput Nat.eqb Nat.eqb_eq), Nat.eqb_refl. intros E. injection E as <-. left. cbn [handler]. apply unwritten_connect. }
    subst w0. destruct (authenticated cfg k0) eqn:Eau.
    2:{ exfalso. refine (only_runs (fun o => forall a, o = Sent c (ConnAck a) -> ca_reason_code a <> Success) c cfg _ _ _ Hy2 Hmid0 _ _ Ha0 a0 eq_refl Hs0). cbn [cn_tasks]. intros k'. rewrite (aget_aput Nat.eqb Nat.eqb_eq), Nat.eqb_refl. intros E. injection E as <-.
        cbn [handler]. unfold connect_code. rewrite Eau. cbn [negb only]. split; [intros a' E; injection E as <-; discriminate|]. split; [discriminate|exact I]. }
    edestruct (stays_runs c id cfg false _ _ _ Hy2 (Hal _ Hi1) (Hon _ Hi1 Hn1)) as (b & _ & HS).
    { split; [discriminate|]. cbn [cn_tasks]. rewrite (aget_aput Nat.eqb Nat.eqb_eq), Nat.eqb_refl. split; [|discriminate]. intros k' E. injection E as <-. cbn [handler]. apply ke_connect. auto. }
    destruct (stays_step c id cfg b _ _ _ _ Hm' I I HS) as (b' & _ & HS'). assert (Hb : b' = true).
    { apply HS'. apply mstep_inv in Hm'. destruct Hm' as [(e & -> & E & _)|[(d' & -> & E & _ & ->)|(d' & k' & o & k1 & -> & E & _)]]; try discriminate. injection E as <-. cbn [cn_tasks]. rewrite (aget_adel Nat.eqb Nat.eqb_eq), Nat.eqb_refl. reflexivity. }
    subst b'. destruct (stays_runs c id cfg true _ _ _ Hr3 (Hal _ Hi2) (Hon _ Hi2 Hn0) HS') as (b2 & Hb2 & HS2). apply HS2. auto. }
  assert (Hsv2 : saved id st2 /\ exists trs2, lives cfg trs2 st2).
  { clear - Hl1 Hps Hsv. induction Hps as [|st1 tr1 x1 Hp IH Hr1 Ht1 (e & He & Hne)]; [eauto|]. destruct IH as [Hs1 (trs1 & Hl2)]. split; [eapply life_saved; eauto|]. eexists. eapply lv_more; eauto. }
  destruct Hsv2 as [Hsv2 (trs2 & Hl2)]. pose proof (lives_sane _ _ _ Hl2) as Hsane2. clear Hsane.
  pose proof (owned_alone cfg _ x2 d id Hr2 Ht2 Ho2) as Hal. pose proof (owned_on_own cfg _ x2 d id Hr2 Ht2 Ho2) as Hon.
  assert (Hp : presented k = id) by (apply (proj1 Ho2); exists k, u, w; split; [apply in_or_app; right; left; reflexivity|left; reflexivity]).
  pose proof Hr2 as Hr'. apply mruns_app in Hr'. destruct Hr' as (y0 & Hy0 & Hyx). inversion Hyx as [|? m y1 ? ? ? Hm Hr1]. subst. apply mruns_app in Hr1. destruct Hr1 as (y2 & Hy2 & _).
  destruct (stays_runs d (presented k) cfg true _ _ _ Hy0) as (b & Hb & HS); [apply Hal; intros; apply in_or_app; auto|apply Hon; [intros; apply in_or_app; auto|exact Hn]|apply stays_on, Hsv2|].
  apply mstep_inv in Hm. destruct Hm as [(e & -> & E & He & Hn' & ->)|[(d' & -> & E & _)|(d' & k' & o & k1 & -> & E & _)]]; try discriminate. injection E as <-. cbn [event_conn] in *.
  destruct (aget Nat.eqb d (w_conns (cn_world y0))) as [i|] eqn:Ei.
  { exfalso. eapply idle_runs; [exact Hy2|exact Hmid| |exact Ha]. cbn [cn_tasks]. intros k'. rewrite (aget_aput Nat.eqb Nat.eqb_eq), Nat.eqb_refl. cbn [handler]. congruence. }
  set (told := fun (o : output) => forall a, o = Sent d (ConnAck a) -> ca_reason_code a = Success -> ca_session_present a = true).
  refine (looking_runs d (presented k) told cfg _ _ _ Hy2 _ Hmid _ _ Ha a eq_refl Hs); [apply Hal; intros i Hi; apply in_or_app; right; right; apply in_or_app; left; exact Hi|].
  intros k'. cbn [cn_tasks cn_world]. rewrite (aget_aput Nat.eqb Nat.eqb_eq), Nat.eqb_refl. intros E. injection E as <-. cbn [handler].
  destruct (looks_connect d (presented k) told) with (cfg := cfg) (k := k) (u := u) (a := w) as [G|G]; auto.
  - intros o Hno a' E. destruct (Hno _ E).
  - intros a1 _ F a' E. injection E as <-. contradiction.
  - intros a1 F a' E _. injection E as <-. exact F.
  - right. split; [apply HS; auto|auto].
Qed.
Print Assumptions C127_complete_over_lives.

(** ** Cases *)
(** Client a connects, loses the connection and comes back, while client b connects and publishes. *)
Definition ex_pr_moves : list move :=
  starts [ex_first 1 (ex_connect "a" false); ex_first 2 (ex_connect "b" true)] ++ rounds 40 [1; 2]%nat ++ starts [EEnd 1] ++ rounds 40 [1]%nat ++
  starts [ex_first 1 (ex_connect "a" false); ex_msg "v"] ++ rounds 40 [1; 2]%nat.
Definition ex_pr_tr := snd (mexec ex_open ex_pr_moves conf_new).
Definition ex_pr_x := fst (mexec ex_open ex_pr_moves conf_new).
Definition ex_pr_ack (p : bool) : connack_packet := Mk_connack_packet V5 p Success None.
Ltac in_trace b := let rec go n := first [eapply (nth_error_In _ n); vm_compute; reflexivity|let m := eval vm_compute in (Nat.ltb n b) in constr_eq m true; go (S n)] in go 0%nat.
Example C127_ex : let tr := ex_pr_tr in let pre := part1 1 2 tr in let mid := part2 1 2 tr in let rest := IEnd 1 :: part3 1 2 tr in
  lives ex_open [] mem_new /\ mruns ex_open (conf_on mem_new) tr ex_pr_x /\ (forall d, Forall texts (events_of d tr)) /\ owns 1 (str "a") tr
  /\ connacked 1 (ex_connect "a" false) (ex_pr_ack false) (part1 1 0 pre) (part2 1 0 pre) (IEnd 1 :: part3 1 0 pre) pre
  /\ connacked 1 (ex_connect "a" false) (ex_pr_ack true) pre mid rest tr.
Proof.
  intros tr pre mid rest. split; [constructor|]. split; [exact (mexec_runs ex_open ex_pr_moves conf_new)|]. split; [apply texts_all; vm_compute; reflexivity|]. split.
  { apply owns_comers. assert (H : comers tr = [(1%nat, str "a", str "uuid"); (2%nat, str "b", str "uuid"); (1%nat, str "a", str "uuid")]) by (vm_compute; reflexivity). rewrite H.
    intros d i u [E|[E|[E|[]]]]; injection E as <- <- <-; (split; [discriminate|]); [left; auto|right; split; discriminate|left; auto]. }
  split; (exists (str "uuid"), true; split; [vm_compute; reflexivity|]; split; [apply no_start_b; vm_compute; reflexivity|in_trace 80%nat]).
Qed.
(** In a later life: client a has come back on connection 3. *)
Example C127_ex_lives : let tr := ex_ak_tr AtLeastOnce PubAck in let tr2 := ex_ak_tr2 AtLeastOnce PubAck in
  lives ex_open [tr] (ex_ak_st AtLeastOnce PubAck) /\ (exists x2, mruns ex_open (conf_on (ex_ak_st AtLeastOnce PubAck)) tr2 x2) /\ (forall d, Forall texts (events_of d tr2)) /\ owns 3 (str "a") tr2
  /\ connacked 3 (ex_connect "a" false) (ex_pr_ack true) [] (part2 3 0 tr2) (IEnd 3 :: part3 3 0 tr2) tr2.
Proof.
  intros tr tr2. split.
  { destruct C125_ex as (H1 & H2 & H3 & _). exact (lv_more _ _ _ _ _ H1 H2 H3). }
  split; [exists (fst (mexec ex_open ex_ak_moves2 (conf_on (ex_ak_st AtLeastOnce PubAck)))); apply mexec_runs|]. split; [apply texts_all; vm_compute; reflexivity|]. split; [apply ex_ak_owns2; vm_compute; reflexivity|].
  exists (str "uuid"), true. split; [vm_compute; reflexivity|]. split; [apply no_start_b; vm_compute; reflexivity|in_trace 80%nat].
Qed.
(** Its CONNECT in the life before had been handled to the end, and it had not asked for a clean start since. *)
Example C127_ex_over_lives : let tr := ex_ak_tr AtLeastOnce PubAck in let tr2 := ex_ak_tr2 AtLeastOnce PubAck in
  connacked 1 (ex_connect "a" false) (ex_pr_ack false) (part1 1 0 tr) (part2 1 0 tr) (IEnd 1 :: part3 1 0 tr) tr /\ no_clean_start 1 (part3 1 0 tr)
  /\ passes ex_open (goes_on_cleanly (str "a")) (ex_ak_st AtLeastOnce PubAck) (ex_ak_st AtLeastOnce PubAck) /\ no_clean_start 3 [].
Proof.
  intros tr tr2. split; [exists (str "uuid"), true; split; [vm_compute; reflexivity|]; split; [apply no_start_b; vm_compute; reflexivity|in_trace 80%nat]|].
  split; [|split; [constructor|intros k u a []]]. intros k u a Hi.
  assert (H : goes_on_only 1 (part3 1 0 tr)) by (apply goes_on_b; vm_compute; reflexivity). exfalso. exact (H _ _ _ Hi).
Qed.
(** The broker stops right after the CONNACK has been sent. *)
Definition ex_pr_moves0 (n : nat) : list move := starts [ex_first 1 (ex_connect "a" false)] ++ rounds n [1]%nat.
Definition ex_pr_x1 := fst (mexec ex_open (ex_pr_moves0 7) conf_new).
Definition ex_pr_tr1 := snd (mexec ex_open (ex_pr_moves0 7) conf_new).
Definition ex_pr_x2 := fst (mexec ex_open (ex_pr_moves0 40) (conf_on (w_store (cn_world ex_pr_x1)))).
Definition ex_pr_tr2 := snd (mexec ex_open (ex_pr_moves0 40) (conf_on (w_store (cn_world ex_pr_x1)))).
Lemma ex_pr_owns tr : comers tr = [(1%nat, str "a", str "uuid")] -> owns 1 (str "a") tr.
Proof. intros H. apply owns_comers. rewrite H. intros d i u [E|[]]; injection E as <- <- <-. split; [discriminate|]. left. auto. Qed.
(** In a later life the client need not be told so: the session is stored after the CONNACK has been sent. *)
Theorem C127_after_a_crash_refuted : exists cfg tr x c id k0 a0 pre0 mid0 rest0 tr2 x2 k a pre mid rest,
  mruns cfg conf_new tr x /\ (forall d, Forall texts (events_of d tr)) /\ owns c id tr
  /\ connacked c k0 a0 pre0 mid0 rest0 tr /\ ca_reason_code a0 = Success /\ cf_clean_start (c_flags k0) = false
  /\ mruns cfg (conf_on (w_store (cn_world x))) tr2 x2 /\ (forall d, Forall texts (events_of d tr2)) /\ owns c id tr2
  /\ connacked c k a pre mid rest tr2 /\ ca_reason_code a = Success /\ cf_clean_start (c_flags k) = false /\ ca_session_present a = false.
Proof.
  exists ex_open, ex_pr_tr1, ex_pr_x1, 1%nat, (str "a"), (ex_connect "a" false), (ex_pr_ack false), [], (tl ex_pr_tr1), [].
  exists ex_pr_tr2, ex_pr_x2, (ex_connect "a" false), (ex_pr_ack false), [], (part2 1 0 ex_pr_tr2), (IEnd 1 :: part3 1 0 ex_pr_tr2).
  split; [exact (mexec_runs ex_open (ex_pr_moves0 7) conf_new)|]. split; [apply texts_all; vm_compute; reflexivity|]. split; [apply ex_pr_owns; vm_compute; reflexivity|].
  split; [exists (str "uuid"), true; split; [vm_compute; reflexivity|]; split; [apply no_start_b; vm_compute; reflexivity|in_trace 20%nat]|]. split; [reflexivity|]. split; [reflexivity|].
  split; [apply mexec_runs|]. split; [apply texts_all; vm_compute; reflexivity|]. split; [apply ex_pr_owns; vm_compute; reflexivity|].
  split; [exists (str "uuid"), true; split; [vm_compute; reflexivity|]; split; [apply no_start_b; vm_compute; reflexivity|in_trace 20%nat]|]. repeat split; reflexivity.
Qed.
Print Assumptions C127_after_a_crash_refuted.
