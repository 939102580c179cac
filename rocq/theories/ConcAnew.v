(** A client that starts anew, while handlers interleave. *)
From Verif Require Import Base Utf8 Codec SpecCodec Tac CodecFacts Maps Topic SpecTopic TopicFacts Property PacketProps Packets TopicTree TreeFacts Storage SpecStorage StorageFacts
  Broker Auth Session SessionFacts Server SpecServer ServerFacts HandlerFacts OutputFacts Conc ConcFacts ConcLocks ConcRoute SpecConc ConcOwn ConcDeliver ConcProv SpecDurable ConcStore SpecLives ConcLives SpecUnsub ConcUnsub.

(** A task that only emits. *)
Section Only.
  Context (P : output -> Prop) (c : nat).
  Fixpoint only (k : code) : Prop := match k with Finish => True | Emit o k => P o /\ only k | _ => False end.
  Lemma only_runs cfg x tr y : mruns cfg x tr y -> (forall e, In (IStart e) tr -> event_conn e <> c) -> (forall k, aget Nat.eqb c (cn_tasks x) = Some k -> only k) ->
    forall o, In (IStep c (OOut o)) tr -> P o.
  Proof.
    induction 1 as [x|x m x1 i tr x2 Hm Hr IH]; intros Hs H o Hi; [destruct Hi|]. apply mstep_inv in Hm.
    assert (Hs1 : forall e, In (IStart e) tr -> event_conn e <> c) by (intros e He; apply Hs; right; exact He).
    destruct Hm as [(e & -> & -> & He & Ha & ->)|[(d & -> & -> & Ha & ->)|(d & k & o' & k1 & -> & -> & Ha & Hx & Hy & ->)]].
    - destruct Hi as [Hi|Hi]; [discriminate|]. apply IH; [exact Hs1| |exact Hi]. cbn [cn_tasks]. intros k. rewrite (aget_aput Nat.eqb Nat.eqb_eq). destruct (Nat.eqb c (event_conn e)) eqn:E; [|apply H].
      apply Nat.eqb_eq in E. destruct (Hs e); [left; reflexivity|congruence].
    - destruct Hi as [Hi|Hi]; [discriminate|]. apply IH; [exact Hs1| |exact Hi]. cbn [cn_tasks]. intros k. rewrite (aget_adel Nat.eqb Nat.eqb_eq). destruct (Nat.eqb c d); [discriminate|apply H].
    - destruct (Nat.eq_dec d c) as [->|Hd].
      + pose proof (H _ Ha) as Hk. destruct k; try contradiction; cbn [Conc.next] in Hx; try discriminate. injection Hx as <- <-. destruct Hk as [H1 H2]. destruct Hi as [Hi|Hi]; [injection Hi as <-; exact H1|].
        apply IH; [exact Hs1| |exact Hi]. cbn [cn_tasks]. intros k'. rewrite (aget_aput Nat.eqb Nat.eqb_eq), Nat.eqb_refl. intros E. injection E as <-. exact H2.
      + destruct Hi as [Hi|Hi]; [congruence|]. apply IH; [exact Hs1| |exact Hi]. cbn [cn_tasks]. intros k'. rewrite (aget_aput Nat.eqb Nat.eqb_eq). destruct (Nat.eqb c d) eqn:E; [apply Nat.eqb_eq in E; congruence|apply H].
  Qed.
End Only.

Section Anew.
  Context (c : nat) (id f : bytes) (M : nat -> Prop).
  Notation sil := (sil c id f true).
  Notation fair := (fair_item c id f true M).
  Notation silent := (silent c id f true M).
  (** the session is forgotten, then its list of subscriptions is deleted *)
  Definition clearing (x : conf) : Prop := exists k K, aget Nat.eqb c (cn_tasks x) = Some k /\ (forall r, sil (fun _ => False) (K r)) /\ aget Nat.eqb c (w_conns (cn_world x)) = None
    /\ ((exists l, k = Acquire l (Forget id (Store (DeleteSession id) K))) \/ k = Forget id (Store (DeleteSession id) K) \/ (k = Store (DeleteSession id) K /\ aget bytes_eqb id (w_manager (cn_world x)) = None)).
  Lemma clearing_connect cfg k u a : authenticated cfg k = true -> presented k = id -> cf_clean_start (c_flags k) = true ->
    exists K, connect_code cfg c k u a = Acquire LManager (Forget id (Store (DeleteSession id) K)) /\ forall r, sil (fun _ => False) (K r).
  Proof.
    intros Ha Hp Hc. pose proof (sil_connect c id f true cfg (fun _ => False) k u a eq_refl Hp) as H. revert H. unfold connect_code. rewrite Ha, Hc. cbn [negb]. cbv zeta.
    unfold presented in Hp. rewrite Hp. intros H. eexists. split; [reflexivity|]. cbn [ConcUnsub.sil] in H. destruct H as (_ & _ & H). intros r. apply (H RUnit). discriminate.
  Qed.
  Lemma manager_none d o w : d <> c -> fair (IStep d o) -> aget bytes_eqb id (w_manager w) = None -> aget bytes_eqb id (w_manager (apply d o w)) = None.
  Proof.
    intros Hd Hf H. destruct (aget bytes_eqb id (w_manager (apply d o w))) as [j|] eqn:E; [|reflexivity].
    assert (G : forall i, j = i) by (intros i; refine (manager_other c id f true M d o w i Hd Hf _ j E); intros j' Hj'; congruence). discriminate (eq_trans (eq_sym (G 0%nat)) (G 1%nat)).
  Qed.
  Lemma clearing_step cfg x m y i : mstep cfg x m = Some (y, i) -> fair i -> clearing x -> (clearing y /\ i <> IEnd c /\ forall o, i <> IStep c (OOut o)) \/ silent y.
  Proof.
    intros Hm Hf (kc & K & Hc & HK & Hn & Hk). apply mstep_inv in Hm.
    destruct Hm as [(e & -> & -> & He & Ha & ->)|[(d & -> & -> & Ha & ->)|(d & k & o & k1 & -> & -> & Ha & Hx & Hy & ->)]].
    - left. split; [|split; discriminate]. exists kc, K. cbn [cn_tasks cn_world]. rewrite (aget_aput Nat.eqb Nat.eqb_eq). destruct (Nat.eqb c (event_conn e)) eqn:E; [apply Nat.eqb_eq in E; congruence|]. auto.
    - assert (Hne : d <> c) by (intros ->; rewrite Ha in Hc; injection Hc as <-; destruct Hk as [(l & Hk)|[Hk|[Hk _]]]; discriminate). left. split; [|split; congruence].
      exists kc, K. cbn [cn_tasks cn_world]. rewrite (aget_adel Nat.eqb Nat.eqb_eq). destruct (Nat.eqb c d) eqn:E; [apply Nat.eqb_eq in E; congruence|]. auto.
    - destruct (Nat.eq_dec d c) as [->|Hd].
      + rewrite Ha in Hc. injection Hc as <-. destruct Hk as [(l & ->)|[->|[-> Hmg]]]; cbn [Conc.next] in Hx; injection Hx as <- <-.
        * left. split; [|split; discriminate]. exists (Forget id (Store (DeleteSession id) K)), K. cbn [cn_tasks cn_world]. rewrite (aget_aput Nat.eqb Nat.eqb_eq), Nat.eqb_refl. auto 8.
        * left. split; [|split; discriminate]. exists (Store (DeleteSession id) K), K. cbn [cn_tasks cn_world]. rewrite (aget_aput Nat.eqb Nat.eqb_eq), Nat.eqb_refl. split; [reflexivity|]. split; [exact HK|]. split; [exact Hn|]. right. right. split; [reflexivity|].
          cbn. rewrite aget_adel by apply beqb_spec. assert (Er : bytes_eqb id id = true) by (apply beqb_spec; reflexivity). rewrite Er. reflexivity.
        * right. exists (fun _ => False). split.
          -- split; [intros j []|]. split; [intros j s []|]. cbn [cn_world apply]. split; [intros j Hj; cbn in Hj; congruence|]. split; [intros _ j Hj; cbn in Hj; congruence|].
             intros st. cbn. unfold mem_load_session. cbn. rewrite aget_adel by apply beqb_spec. assert (Er : bytes_eqb id id = true) by (apply beqb_spec; reflexivity). rewrite Er. discriminate.
          -- cbn [cn_tasks]. intros k'. rewrite (aget_aput Nat.eqb Nat.eqb_eq), Nat.eqb_refl. intros E. injection E as <-. apply HK.
      + left. split; [|split; congruence]. exists kc, K. cbn [cn_tasks cn_world]. rewrite (aget_aput Nat.eqb Nat.eqb_eq). destruct (Nat.eqb c d) eqn:E; [apply Nat.eqb_eq in E; congruence|].
        rewrite conns_other by exact Hd. split; [exact Hc|]. split; [exact HK|]. split; [exact Hn|]. destruct Hk as [Hk|[Hk|[Hk Hg]]]; auto. right. right. split; [exact Hk|]. apply manager_none; assumption.
  Qed.
  Lemma clearing_runs cfg x tr y : mruns cfg x tr y -> Forall fair tr -> clearing x -> (exists o, In (IStep c (OOut o)) tr) -> silent y.
  Proof.
    induction 1 as [x|x m x1 i tr x2 Hm Hr IH]; intros Hf H Hc; [destruct Hc as (o & [])|]. inversion Hf as [|? ? Hf1 Hf2]; subst.
    destruct (clearing_step _ _ _ _ _ Hm Hf1 H) as [(H1 & H2 & H3)|H1].
    - apply IH; auto. destruct Hc as (o & [Hc|Hc]); eauto. destruct (H3 o Hc).
    - eapply silent_runs; eauto.
  Qed.
End Anew.
(** Nothing is going on for the connection: what it may be sent if it begins anew does not matter as long as it does not. *)
Lemma silent_false c id f M x : silent c id f true M x -> aget Nat.eqb c (cn_tasks x) = None -> silent c id f false M x.
Proof.
  intros (J & (P1 & P2 & P3 & _ & P5) & _) H. exists J. split; [|congruence]. split; [exact P1|]. split; [exact P2|]. split; [exact P3|]. split; [discriminate|exact P5].
Qed.
Lemma started_anew {st0} cfg c id f k u w a pre mid rest x {Hsane : Sane cfg st0} : let TR := pre ++ IStart (EFirst c (Some (Connect k)) u w) :: mid ++ rest in
  mruns cfg (conf_on st0) TR x -> (forall d, Forall texts (events_of d TR)) -> owns c id TR -> cf_clean_start (c_flags k) = true ->
  In (IStep c (OOut (Sent c (ConnAck a)))) mid -> ca_reason_code a = Success -> (forall e, In (IStart e) mid -> event_conn e <> c) -> unasked c f rest ->
  exists y, mruns cfg y rest x /\ silent c id f true (mine c TR) y /\ silent c id f true (mine c TR) x.
Proof.
  intros TR Hr Ht Ho Hc Ha Hs Hmid Hu0. assert (Hu : unasked c f (mid ++ rest)) by (intros q Hq; apply in_app_or in Hq; destruct Hq as [Hq|Hq]; [destruct (Hmid _ Hq eq_refl)|apply (Hu0 _ Hq)]).
  assert (Hp : presented k = id) by (apply (proj1 Ho); exists k, u, w; split; [unfold TR; apply in_or_app; right; left; reflexivity|left; reflexivity]).
  pose proof (owned_fair cfg TR x c id f true Hr Ht Ho (mid ++ rest)) as Hfair. specialize (Hfair ltac:(intros i Hi; unfold TR; apply in_or_app; right; right; exact Hi) Hu ltac:(discriminate)).
  apply Forall_app in Hfair. destruct Hfair as [Hfm Hfr]. pose proof Hr as Hr'. unfold TR in Hr'. apply mruns_app in Hr'. destruct Hr' as (y0 & Hy0 & Hyx). inversion Hyx as [|? m y1 ? ? ? Hm Hr1].
  subst. apply mruns_app in Hr1. destruct Hr1 as (y2 & Hy2 & Hr2). exists y2. split; [exact Hr2|]. assert (HS : silent c (presented k) f true (mine c TR) y2).
  { apply mstep_inv in Hm. destruct Hm as [(e & -> & E & He & Hn & ->)|[(d & -> & E & _)|(d & k' & o & k1 & -> & E & _)]]; try discriminate. injection E as <-. cbn [event_conn] in *.
    destruct (aget Nat.eqb c (w_conns (cn_world y0))) as [i|] eqn:Ei.
    - exfalso. eapply idle_runs; [exact Hy2|exact Hmid| |exact Ha]. cbn [cn_tasks]. intros k'. rewrite (aget_aput Nat.eqb Nat.eqb_eq), Nat.eqb_refl. cbn [handler]. congruence.
    - destruct (authenticated cfg k) eqn:Eau.
      + destruct (clearing_connect c (presented k) f cfg k u w Eau eq_refl Hc) as (K & HK1 & HK2). eapply clearing_runs; [exact Hy2|exact Hfm| |eauto].
        eexists _, K. cbn [cn_tasks cn_world]. rewrite (aget_aput Nat.eqb Nat.eqb_eq), Nat.eqb_refl. split; [reflexivity|]. split; [exact HK2|]. split; [exact Ei|]. left. exists LManager. cbn [handler]. exact HK1.
      + exfalso. refine (only_runs (fun o => forall a, o = Sent c (ConnAck a) -> ca_reason_code a <> Success) c cfg _ _ _ Hy2 Hmid _ _ Ha a eq_refl Hs). cbn [cn_tasks]. intros k'. rewrite (aget_aput Nat.eqb Nat.eqb_eq), Nat.eqb_refl. intros E. injection E as <-.
        cbn [handler]. unfold connect_code. rewrite Eau. cbn [negb only]. split; [intros a' E; injection E as <-; discriminate|]. split; [discriminate|exact I]. }
  split; [exact HS|]. eapply silent_runs; eauto.
Qed.
