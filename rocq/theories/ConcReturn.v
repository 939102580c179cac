(** Sessions that are stored, for clients that come back in a later life. *)
From Verif Require Import Base Utf8 Codec SpecCodec Tac CodecFacts Maps Topic SpecTopic TopicFacts Property PacketProps Packets TopicTree TreeFacts Storage SpecStorage StorageFacts
  Broker Auth Session SessionFacts Server SpecServer ServerFacts HandlerFacts OutputFacts Conc ConcFacts ConcLocks ConcRoute SpecConc ConcOwn ConcDeliver ConcProv SpecDurable ConcStore SpecLives ConcLives SpecUnsub ConcUnsub ConcPresent.

Definition saved (id : bytes) (m : mem_store) : Prop := exists s, mem_load_session id m = Some s.
Lemma saved_step id o m : (forall x, o <> DeleteSession x) -> saved id m -> saved id (snd (mem_step m o)).
Proof.
  intros Ho [s Hs]. unfold saved. destruct o as [x st'|x|x| |t [y|]|g| |x y|x|x|x pid y|x pid|x pid|x]; try (exists s; exact Hs).
  - cbn. unfold mem_load_session. cbn. rewrite aget_aput by apply beqb_spec. destruct (bytes_eqb id x); eauto.
  - destruct (Ho x eq_refl).
  - exists s. cbn [mem_step snd]. unfold mem_remove_inflight. destruct (aget bytes_eqb x (ms_inflight m)); exact Hs.
Qed.
Lemma saved_save id s m : saved id (snd (mem_step m (SaveSession id s))).
Proof. exists s. cbn. unfold mem_load_session. cbn. rewrite aget_aput by apply beqb_spec. assert (E : bytes_eqb id id = true) by (apply beqb_spec; reflexivity). rewrite E. reflexivity. Qed.

Section Keep.
  Context (c : nat) (id : bytes).
  (** [b]: the session is stored; a handler that is done leaves it so *)
  Fixpoint keep (b : bool) (k : code) : Prop :=
    match k with
    | Finish => b = true
    | Emit _ k | Send _ _ k | Leave k | Acquire _ k | Conc.Release _ k | Attach _ k | Detach k | Forget _ k => keep b k
    | Sess _ g => forall s n, keep b (snd (g s n))
    | Sub _ k => forall n, keep b (k n)
    | Walk _ k => forall ps, keep b (k ps)
    | Store o k =>
        match o with
        | SaveSession _ _ => forall r, keep true (k r)
        | DeleteSession _ => b = false /\ forall r, keep b (k r)
        | _ => forall r, keep b (k r)
        end
    | Find _ k => forall r, keep b (k r)
    | New _ _ k => forall j, keep b (k j)
    end.
  Notation ke := (keep true).
  Lemma ke_sends ps g k : ke k -> ke (sends ps g k).
  Proof. induction ps; simpl; auto. Qed.
  Lemma ke_publish t g k : ke k -> ke (publish t g k).
  Proof.
    intros H. assert (Hr : ke (route t g k)) by (simpl; intros ps; apply ke_sends, H).
    unfold publish. destruct (mg_retain g); [destruct (mg_payload g) as [[|]|]|]; cbn [keep]; auto.
  Qed.
  Lemma ke_id i k : (forall x, ke (k x)) -> ke (client_id_of i k).
  Proof. intros H. unfold client_id_of. cbn [keep fst snd]. auto. Qed.
  Lemma ke_end i : ke (end_code c i).
  Proof.
    unfold end_code. cbn [keep fst snd]. intros s n. destruct (se_will s) as [x|]; [|reflexivity].
    apply ke_publish. apply ke_id. intros _. apply ke_id. intros x'. cbn. auto.
  Qed.
  Lemma ke_respond r : ke (respond c r).
  Proof. destruct r; cbn; auto. Qed.
  Lemma ke_one i g k : ke k -> ke (subscribe_one i g k).
  Proof. intros H. unfold subscribe_one. cbn [keep fst snd]. auto. Qed.
  Lemma ke_sub i fs : forall k, (forall rs, ke (k rs)) -> ke (subscribe_all i fs k).
  Proof. induction fs as [|[g o] fs IH]; intros k H; cbn [subscribe_all]; [apply H|]. destruct (validate_subscribe_filter g); [auto|]. apply ke_one. auto. Qed.
  Lemma ke_save i k : ke k -> ke (save_subscriptions i k).
  Proof. intros H. apply ke_id. intros x. cbn [keep fst snd]. auto. Qed.
  Lemma ke_remove i n k : ke k -> ke (remove_inflight i n k).
  Proof. intros H. apply ke_id. intros x. cbn [keep]. auto. Qed.
  Lemma ke_simple i h after : (forall k, ke k -> ke (after k)) -> ke (simple_code c i h after).
  Proof. intros Ha. unfold simple_code. cbn [keep]. intros s n. destruct (h s) as [[r| |] s1]; cbn [snd]; [apply Ha, ke_respond|apply ke_end|reflexivity]. Qed.
  Lemma ke_packet cfg i k : ke (packet_code cfg c i k).
  Proof.
    destruct k as [k|k|p|a|a|a|a|p|k|p|k| | |x|a]; cbn [packet_code]; try apply ke_end; try (apply ke_simple; auto using ke_remove; fail).
    - unfold publish_code. destruct (validate_publish_topic _); [apply ke_end|].
      destruct (pb_qos p); [|destruct (pb_packet_id p) as [n|]|destruct (pb_packet_id p) as [n|]|]; try (apply ke_publish; first [apply ke_respond|apply ke_end]).
      intros s n'. cbn [snd]. apply ke_publish, ke_respond.
    - intros s n. cbn [fst snd]. apply ke_sub. intros rs. match goal with |- ke (Conc.Release _ ?z) => change (ke z) end. apply ke_save. reflexivity.
    - intros s n. destruct (unsubscribe_loop (us_payload p) (se_subs s)) as [rs subs]. cbn [snd]. apply ke_save. reflexivity.
    - apply ke_respond.
    - intros s n. cbn [snd]. apply ke_id. intros y. cbn [keep]. intros. apply ke_end.
  Qed.
  Lemma ke_begin b i u a r subs wl infl : a = true \/ b = true -> keep b (begin_code c i u a r subs wl infl).
  Proof.
    intros Hab. unfold begin_code. cbn [keep]. intros s n. destruct (begin u r s) as [ack t]. cbn [snd]. destruct a; [|destruct Hab; [discriminate|assumption]]. unfold client_id_of. cbn [keep fst snd]. intros s0 n0 r0 s1 n1.
    cbv zeta. assert (Hr : ke (restore_code c i subs wl infl)).
    { unfold restore_code. cbv zeta. set (rest := emits _ _). assert (Hr : ke rest) by (unfold rest; clear rest; induction infl; cbn; auto).
      set (wills := match wl with Some x => _ | None => _ end). assert (Hw : ke wills) by (unfold wills; destruct wl; [|exact Hr]; intros s' n'; exact Hr).
      destruct subs as [|g fs]; [exact Hw|]. change (ke (restore_all i (g :: fs) (Conc.Release (LSession i) wills))).
      induction (g :: fs) as [|h l IH]; cbn [restore_all]; [exact Hw|]. apply ke_one, IH. }
    destruct (se_will s1); cbn [keep]; auto.
  Qed.
  Lemma ke_connect cfg b k u a : (b = false /\ a = true /\ authenticated cfg k = true) \/ (b = true /\ cf_clean_start (c_flags k) = false) -> keep b (connect_code cfg c k u a).
  Proof.
    intros Hb. unfold connect_code. destruct (authenticated cfg k); cbn [negb]; [|destruct Hb as [(_ & _ & Hb)|[-> _]]; [discriminate|reflexivity]]. cbv zeta.
    assert (Hab : a = true \/ b = true) by tauto.
    assert (Hg : forall r subs wl infl, keep b (enter_code k (fun i => begin_code c i u a r subs wl infl))).
    { intros r subs wl infl. unfold enter_code. cbv zeta. cbn [keep]. intros [j|]; cbn [keep snd]; intros; apply ke_begin, Hab. }
    match goal with |- keep b (Acquire _ ?z) => change (keep b z) end. destruct (cf_clean_start _); cbn [keep].
    - destruct Hb as [(-> & _)|[_ Hb]]; [|discriminate]. split; [reflexivity|]. auto.
    - intros [j|]; [apply Hg|]. cbn [keep]. intros r. destruct r as [| [st|] | | | | |]; try apply Hg. cbn [keep]. auto.
  Qed.
  Lemma ke_handler cfg sv e : event_conn e = c -> (forall k u a, e = EFirst c (Some (Connect k)) u a -> cf_clean_start (c_flags k) = false) -> ke (handler cfg sv e).
  Proof.
    intros E Hp. destruct e as [d [[]|] u a|d k|d g|d|d|]; simpl in E; subst; destruct sv as [i|]; cbn [handler]; try reflexivity.
    - apply ke_connect. right. split; [reflexivity|]. eapply Hp. reflexivity.
    - apply ke_packet.
    - unfold out_code. cbn [keep]. intros s n. destruct (process_outgoing g s _) as [[[p| |] s']|]; cbn [snd]; try reflexivity.
      destruct (pb_packet_id p) as [pid|]; [|reflexivity]. destruct (pb_qos p); try reflexivity; apply ke_id; intros x; cbn; auto.
    - apply ke_end.
  Qed.
  Definition stays (b : bool) (x : conf) : Prop := (b = true -> saved id (w_store (cn_world x))) /\ (forall k, aget Nat.eqb c (cn_tasks x) = Some k -> keep b k) /\ (aget Nat.eqb c (cn_tasks x) = None -> b = true).
  (** no clean start, and the sessions that are stored are the client's *)
  Definition on_own (i : item) : Prop :=
    match i with
    | IStart (EFirst d (Some (Connect k)) _ _) => d = c -> cf_clean_start (c_flags k) = false
    | IStep d (OStore (SaveSession x _) _) => d = c -> x = id
    | _ => True
    end.
  Lemma stays_step cfg b x m y i : mstep cfg x m = Some (y, i) -> alone c id i -> on_own i -> stays b x -> exists b', (b = true -> b' = true) /\ stays b' y.
  Proof.
    intros Hm Hf Hi (B1 & B2 & B3). apply mstep_inv in Hm. unfold stays. destruct Hm as [(e & -> & -> & He & Ha & ->)|[(d & -> & -> & Ha & ->)|(d & k & o & k1 & -> & -> & Ha & Hx & Hy & ->)]]; cbn [cn_tasks cn_world].
    - exists b. split; [auto|]. split; [exact B1|]. rewrite (aget_aput Nat.eqb Nat.eqb_eq). destruct (Nat.eqb c (event_conn e)) eqn:Ed; [|auto]. apply Nat.eqb_eq in Ed. split; [|discriminate]. intros k Ek. injection Ek as <-.
      rewrite B3 by (rewrite Ed; exact Ha). apply ke_handler; [auto|]. intros k u a ->. apply Hi. reflexivity.
    - exists b. split; [auto|]. split; [exact B1|]. rewrite (aget_adel Nat.eqb Nat.eqb_eq). destruct (Nat.eqb c d) eqn:Ed; [|auto]. apply Nat.eqb_eq in Ed. subst d. split; [discriminate|]. intros _. exact (B2 _ Ha).
    - rewrite (aget_aput Nat.eqb Nat.eqb_eq). destruct (Nat.eq_dec d c) as [->|Hd].
      + rewrite Nat.eqb_refl. specialize (B2 _ Ha).
        assert (Hsame : forall b', (b = true -> b' = true) -> keep b' k1 -> (b' = true -> saved id (w_store (apply c o (cn_world x)))) -> exists b0, (b = true -> b0 = true) /\ (b0 = true -> saved id (w_store (apply c o (cn_world x)))) /\ (forall k0, Some k1 = Some k0 -> keep b0 k0) /\ (Some k1 = None -> b0 = true)).
        { intros b0 H0 H1 H2. exists b0. split; [exact H0|]. split; [exact H2|]. split; [intros k0 E; injection E as <-; exact H1|discriminate]. }
        destruct k; cbn [Conc.next keep] in *; try discriminate; try (injection Hx as <- <-; apply (Hsame b); [auto|apply B2|exact B1]; fail).
        * destruct (nth_error (w_heap (cn_world x)) i) as [s|]; [|discriminate]. specialize (B2 s (bk_tree (w_broker (cn_world x)))). destruct (f s _) as [s' k']. injection Hx as <- <-. apply (Hsame b); [auto|apply B2|exact B1].
        * injection Hx as <- <-. cbn [on_own] in Hi.
          assert (Ho : (exists z s, o0 = SaveSession z s) \/ (exists z, o0 = DeleteSession z) \/ ((forall z s, o0 <> SaveSession z s) /\ forall z, o0 <> DeleteSession z)) by (destruct o0; try (right; right; split; discriminate); [left; eauto|right; left; eauto]).
          destruct Ho as [(z & s & ->)|[(z & ->)|[N1 N2]]].
          -- specialize (Hi eq_refl). subst z. apply (Hsame true); [auto|apply B2|]. intros _. apply (saved_save id s (w_store (cn_world x))).
          -- destruct B2 as [-> B2]. apply (Hsame false); [discriminate|apply B2|discriminate].
          -- apply (Hsame b); [auto| |intros Hb; apply (saved_step id o0 (w_store (cn_world x)) N2), B1, Hb]. destruct o0; first [destruct (N1 _ _ eq_refl)|destruct (N2 _ eq_refl)|apply B2].
      + destruct (Nat.eqb c d) eqn:Ed; [apply Nat.eqb_eq in Ed; congruence|]. exists b. split; [auto|]. split; [|auto]. intros Hb. specialize (B1 Hb).
        destruct o as [o|j' s s'|g q|t ps|p q| |o r|z r|z|z j' s|j'| |l|l]; try exact B1. cbn [alone] in Hf. destruct B1 as [s B1]. exists s. cbn [apply w_store set_store].
        change (mem_load_session id (snd (mem_step (w_store (cn_world x)) o)) = Some s). rewrite keyless_sessions by (apply Hf, Hd). exact B1.
  Qed.
  Lemma stays_runs cfg b x tr y : mruns cfg x tr y -> Forall (alone c id) tr -> Forall on_own tr -> stays b x -> exists b', (b = true -> b' = true) /\ stays b' y.
  Proof.
    intros Hr. revert b. induction Hr as [x|x m x1 i tr x2 Hm Hr IH]; intros b Hf Hi Hx; [exists b; auto|]. inversion Hf; inversion Hi; subst. destruct (stays_step cfg b x m x1 i) as (b1 & E1 & S1); auto.
    destruct (IH b1) as (b2 & E2 & S2); auto. exists b2. auto.
  Qed.

  (** ** If there is one in the store, the CONNACK says so *)
  Context (told : output -> Prop).
  Definition looks (k : code) : Prop := exists K, (k = Find id K \/ exists l, k = Acquire l (Find id K)) /\ (forall j, said told (K (Some j))) /\ exists K2, K None = Store (LoadSession id) K2 /\ forall s, said told (K2 (RSession (Some s))).
  Definition loads (k : code) : Prop := exists K2, k = Store (LoadSession id) K2 /\ forall s, said told (K2 (RSession (Some s))).
  Definition looking (x : conf) : Prop := forall k, aget Nat.eqb c (cn_tasks x) = Some k -> said told k \/ (saved id (w_store (cn_world x)) /\ (looks k \/ loads k)).
  Lemma looking_step cfg x m y i : mstep cfg x m = Some (y, i) -> alone c id i -> (forall e, i = IStart e -> event_conn e <> c) -> looking x -> looking y /\ forall q, i = IStep c (OOut q) -> told q.
  Proof.
    intros Hm Hf Hs Hx0. apply mstep_inv in Hm. unfold looking. destruct Hm as [(e & -> & -> & He & Ha & ->)|[(d & -> & -> & Ha & ->)|(d & k & o & k1 & -> & -> & Ha & Hx & Hy & ->)]]; cbn [cn_tasks cn_world].
    - split; [|discriminate]. intros k. rewrite (aget_aput Nat.eqb Nat.eqb_eq). destruct (Nat.eqb c (event_conn e)) eqn:Ed; [|apply Hx0]. apply Nat.eqb_eq in Ed. destruct (Hs _ eq_refl). auto.
    - split; [|discriminate]. intros k. rewrite (aget_adel Nat.eqb Nat.eqb_eq). destruct (Nat.eqb c d); [discriminate|apply Hx0].
    - rewrite (aget_aput Nat.eqb Nat.eqb_eq). destruct (Nat.eq_dec d c) as [->|Hd].
      + rewrite Nat.eqb_refl. destruct (Hx0 _ Ha) as [Hk|[Hv [(K & [-> |(l & ->)] & HK & K2 & E2 & H2)|(K2 & -> & H2)]]].
        * destruct (said_next told _ _ _ _ Hx Hk) as [G1 G2]. split; [intros k' E; injection E as <-; auto|]. intros q E. injection E as ->. exact (G2 _ eq_refl).
        * cbn [Conc.next] in Hx. injection Hx as <- <-. split; [|discriminate]. intros k' E. injection E as <-. destruct (aget bytes_eqb id (w_manager (cn_world x))) as [j|]; [left; apply HK|]. right. split; [exact Hv|]. right. exists K2. auto.
        * cbn [Conc.next] in Hx. injection Hx as <- <-. split; [|discriminate]. intros k' E. injection E as <-. right. split; [exact Hv|]. left. exists K. split; [auto|]. split; [exact HK|]. exists K2. auto.
        * cbn [Conc.next] in Hx. injection Hx as <- <-. split; [|discriminate]. intros k' E. injection E as <-. left. destruct Hv as [s Hv]. cbn [mem_step fst]. rewrite Hv. apply H2.
      + split; [|intros q E; congruence]. destruct (Nat.eqb c d) eqn:Ed; [apply Nat.eqb_eq in Ed; congruence|]. intros k' Hk'. destruct (Hx0 _ Hk') as [Hk|[Hw Hk]]; [auto|]. right. split; [|exact Hk].
        destruct o as [o|j' s s'|g q|t ps|p q| |o r|z r|z|z j' s|j'| |l|l]; try exact Hw. cbn [alone] in Hf. destruct Hw as [s Hw]. exists s. cbn [apply w_store set_store].
        change (mem_load_session id (snd (mem_step (w_store (cn_world x)) o)) = Some s). rewrite keyless_sessions by (apply Hf, Hd). exact Hw.
  Qed.
  Lemma looking_runs cfg x tr y : mruns cfg x tr y -> Forall (alone c id) tr -> (forall e, In (IStart e) tr -> event_conn e <> c) -> looking x -> forall q, In (IStep c (OOut q)) tr -> told q.
  Proof.
    induction 1 as [x|x m x1 i tr x2 Hm Hr IH]; intros Hf Hs Hx q Hi; [destruct Hi|]. inversion Hf as [|? ? F1 F2]; subst. destruct (looking_step _ _ _ _ _ Hm F1) as [G1 G2]; [intros e ->; apply Hs; left; reflexivity|exact Hx|].
    destruct Hi as [->|Hi]; [exact (G2 _ eq_refl)|]. apply IH; auto. intros e He. apply Hs. right. exact He.
  Qed.
  Context (HP0 : forall o, (forall a, o <> Sent c (ConnAck a)) -> told o) (HP1 : forall a, ca_session_present a = false -> ca_reason_code a <> Success -> told (Sent c (ConnAck a))).
  Lemma looks_connect cfg k u a : presented k = id -> cf_clean_start (c_flags k) = false -> says c told true -> said told (connect_code cfg c k u a) \/ looks (connect_code cfg c k u a).
  Proof.
    intros Hp Hc Ht. unfold connect_code. destruct (negb _); [left; split; [apply HP1; [reflexivity|discriminate]|split; [apply HP0; discriminate|exact I]]|]. cbv zeta. rewrite Hc. unfold presented in Hp. rewrite Hp.
    right. eexists. split; [right; exists LManager; reflexivity|]. split; [intros j; apply said_enter; auto|]. eexists. split; [reflexivity|]. intros s. cbn [said]. intros rw ri. apply said_enter; auto.
  Qed.
  (** A CONNACK that cannot be written is not sent. *)
  Lemma unwritten_connect cfg k u : said (fun o => forall a, o = Sent c (ConnAck a) -> ca_reason_code a <> Success) (connect_code cfg c k u false).
  Proof.
    unfold connect_code. destruct (negb _); [split; [intros a [= <-]; discriminate|split; [discriminate|exact I]]|]. cbv zeta.
    assert (Hg : forall r subs wl infl, said (fun o => forall a, o = Sent c (ConnAck a) -> ca_reason_code a <> Success) (enter_code k (fun i => begin_code c i u false r subs wl infl))).
    { intros r subs wl infl. unfold enter_code. cbv zeta. cbn [said]. assert (Hb : forall i, said (fun o => forall a, o = Sent c (ConnAck a) -> ca_reason_code a <> Success) (begin_code c i u false r subs wl infl)).
      { intros i s t. destruct (begin u r s). cbn. split; [discriminate|exact I]. } intros [i|]; [intros s t; apply Hb|intros j; apply Hb]. }
    destruct (cf_clean_start _); cbn [said]; [auto|]. intros [j|]; [apply Hg|]. cbn [said]. intros r. destruct r as [| [st|] | | | | |]; try apply Hg. cbn [said]. auto.
  Qed.
End Keep.

(** The client of connection [c] does not ask for a clean start. *)
Definition no_clean_start (c : nat) (tr : list item) : Prop := forall k u a, In (IStart (EFirst c (Some (Connect k)) u a)) tr -> cf_clean_start (c_flags k) = false.
Lemma owned_on_own {st0} cfg TR x c id {Hsane : Sane cfg st0} : mruns cfg (conf_on st0) TR x -> (forall c, Forall texts (events_of c TR)) -> owns c id TR ->
  forall tr, (forall i, In i tr -> In i TR) -> no_clean_start c tr -> Forall (on_own c id) tr.
Proof.
  intros Hr Ht Ho tr Hin Hn. apply Forall_forall. intros i Hi. destruct i as [[d [[k| | | | | | | | | | | | | |]|] u a|d k|d g|d|d|]|d o|d]; try exact I; [intros ->; eapply Hn, Hi|].
  destruct o as [o|j' s s'|g q|t ps|p q| |o r|z r|z|z j' s|j'| |l|l]; try exact I. destruct o as [z s|z|z| |t y|g| |z y|z|z|z pid y|z pid|z pid|z]; try exact I. intros ->.
  destruct (keyed_runs cfg TR Ht (conf_on st0) TR x Hr [] []) as [_ H]; [rewrite app_nil_r; reflexivity|constructor|discriminate|]. destruct (H _ _ _ (Hin _ Hi)) as [_ Hk]. destruct (Hk z eq_refl) as (e & He & Hz).
  apply (proj1 Ho). assert (e = c) as -> by (eapply owns_linked; eauto). exact Hz.
Qed.
Lemma stays_on c id st : saved id st -> stays c id true (conf_on st).
Proof. intros H. split; [intros _; exact H|]. split; [discriminate|reflexivity]. Qed.
Lemma life_saved cfg trs st tr x c id : lives cfg trs st -> mruns cfg (conf_on st) tr x -> (forall d, Forall texts (events_of d tr)) -> owns c id tr -> no_clean_start c tr -> saved id st -> saved id (w_store (cn_world x)).
Proof.
  intros Hl Hr Ht Ho Hn Hs. pose proof (lives_sane _ _ _ Hl) as Hsane. destruct (stays_runs c id cfg true _ _ _ Hr) as (b & Hb & HS); [eapply owned_alone; eauto|eapply owned_on_own; eauto|apply stays_on, Hs|]. apply HS. auto.
Qed.
