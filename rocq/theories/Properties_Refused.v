(** Property C119: who is not let in changes nothing.
    Every theorem is followed by a concrete case meeting its hypotheses. *)
From Coq Require Import String.
From Verif Require Import Base Utf8 Codec SpecCodec Tac CodecFacts Str Maps Topic SpecTopic Property PacketProps Packets SpecPackets
  TopicTree Storage Broker Auth Session Server SpecServer ServerFacts SpecOutput Network SpecNetwork NetworkFacts Conc SpecConc ConcFacts SpecLives
  ConcNet SpecConcNet ConcNetFacts SpecConcOutput SpecRefused ConcRefused Examples Properties_Server Properties_Network Properties_Conc Properties_ConcNet.
Local Open Scope list_scope.

(** All that is ever done for a connection on which no good CONNECT comes: it may be sent a CONNACK that refuses it, and it is
    closed. Nothing is stored, published, subscribed or looked up for it, whatever else it sends. *)
Theorem C119_only_refused cfg st tr x c o : mruns cfg (conf_on st) tr x -> never_let_in cfg c tr -> In (IStep c o) tr ->
  exists q, o = OOut q /\ refusal c q.
Proof.
  intros H Hn Hi. destruct (refused_runs cfg (Nat.eqb c) _ _ _ H _ (shut_on _ st) (bare_on _ st)) as (_ & H2 & _).
  - intros d Hd. apply Nat.eqb_eq in Hd. subst d. exact Hn.
  - apply (H2 _ _ (Nat.eqb_refl c) Hi).
Qed.
Print Assumptions C119_only_refused.

Lemma without_other out tr c : out c = false -> (forall e, In (IStart e) tr -> e <> ERestart) ->
  outputs_of c (without out tr) = outputs_of c tr /\ events_of c (without out tr) = events_of c tr.
Proof.
  intros Ho. induction tr as [|i tr IH]; intros Hr; [split; reflexivity|]. destruct IH as [I1 I2]. { intros e He. apply Hr. right. exact He. }
  unfold without in *. cbn [filter]. destruct (out (item_of i)) eqn:E; cbn [negb].
  - unfold outputs_of, events_of in *. cbn [flat_map]. destruct i as [e|d o|d]; cbn [item_of] in E.
    + rewrite event_of_conn by (apply Hr; left; reflexivity). destruct (Nat.eqb_spec (event_conn e) c); [congruence|]. split; assumption.
    + destruct o; try (split; assumption). destruct (Nat.eqb_spec d c); [congruence|]. split; assumption.
    + split; assumption.
  - unfold outputs_of, events_of in *. cbn [flat_map]. rewrite I1, I2. split; reflexivity.
Qed.
Lemma no_restart cfg x tr y : mruns cfg x tr y -> forall e, In (IStart e) tr -> e <> ERestart.
Proof.
  induction 1 as [|x m x1 i tr x2 Hs _ IH]; intros e; [intros []|]. intros [->|Hi]; [|auto].
  apply mstep_inv in Hs. destruct Hs as [(e' & _ & E & He & _)|[(d & _ & E & _)|(d & k & o & k1 & _ & E & _)]]; congruence.
Qed.
(** Whatever runs at the same time, the same run without these connections is possible. It leads to the same sessions,
    store, topics and locks; the other connections send and are sent the same. *)
Theorem C119_no_trace cfg st tr x out : mruns cfg (conf_on st) tr x -> (forall c, out c = true -> never_let_in cfg c tr) ->
  exists y, mruns cfg (conf_on st) (without out tr) y /\ cn_world y = cn_world x /\ cn_locks y = cn_locks x /\ cn_readers y = cn_readers x
    /\ forall c, out c = false -> aget Nat.eqb c (cn_tasks y) = aget Nat.eqb c (cn_tasks x)
        /\ outputs_of c (without out tr) = outputs_of c tr /\ events_of c (without out tr) = events_of c tr.
Proof.
  intros H Hn. destruct (refused_runs cfg out _ _ _ H _ (shut_on _ st) (bare_on _ st) Hn) as (_ & _ & y & H1 & [B1 B2 B3 B4 B5]).
  exists y. repeat (split; [assumption|]). intros c Hc. split; [auto|]. apply without_other; [exact Hc|]. eapply no_restart; eauto.
Qed.
Print Assumptions C119_no_trace.
(** The same over any number of lives: the store that is left is the one that would be left without them. *)
Theorem C119_over_lives cfg trs st outs : lives cfg trs st -> Forall2 (fun out tr => forall c, out c = true -> never_let_in cfg c tr) outs trs ->
  lives cfg (map (fun x => without (fst x) (snd x)) (combine outs trs)) st.
Proof.
  intros H. revert outs. induction H as [|trs st tr x Hl IH Hr Ht]; intros outs Hf.
  - inversion Hf; subst. constructor.
  - apply Forall2_app_inv_r in Hf. destruct Hf as (o1 & o2 & H1 & H2 & ->). inversion H2 as [|out tr0 ? ? Hn H3]; subst. inversion H3; subst.
    assert (Hc : forall A B (a : list A) (b : list B) x y, length a = length b -> combine (a ++ [x]) (b ++ [y]) = combine a b ++ [(x, y)]).
    { clear. intros A B a. induction a as [|a0 a IH]; intros [|b0 b] x y E; try discriminate; [reflexivity|]. cbn. f_equal. apply IH. cbn in E. congruence. }
    rewrite Hc, map_app by (clear - H1; induction H1; cbn; congruence). cbn [map fst snd].
    destruct (C119_no_trace _ _ _ _ _ Hr Hn) as (y & Hy & <- & _ & _ & Ho). apply (lv_more cfg _ st _ y); [apply IH, H1|exact Hy|].
    intros c. specialize (Ht c). rewrite Forall_forall in *. intros e He. apply Ht. unfold events_of, without in *.
    apply in_flat_map in He. destruct He as (i & Hi & He). apply filter_In in Hi. apply in_flat_map. exists i. split; [apply Hi|exact He].
Qed.
Print Assumptions C119_over_lives.

Lemma reads_head p b cs k ks b1 cs1 : reads_to p b cs (k :: ks) b1 cs1 -> forall k' ks' b2 cs2, reads_to p b cs (k' :: ks') b2 cs2 -> k' = k.
Proof.
  intros H. remember (k :: ks) as l eqn:El. revert k ks El. induction H as [b cs|b c cs x l b1 cs1 Hp Hc H IH|b cs k r l b1 cs1 Hp H IH]; intros k0 ks0 El k' ks' b2 cs2 H'.
  - discriminate.
  - inversion H'; subst; [eapply IH; eauto|congruence].
  - injection El as -> ->. inversion H'; subst; congruence.
Qed.
Lemma opens_first cfg p st ms tr n c k u a : bruns cfg p (bnet_on st) ms tr n -> In (IStart (EFirst c (Some k) u a)) tr -> opens_with p c (net_part ms) k.
Proof.
  intros H Hi. apply in_split in Hi. destruct Hi as (pre & post & ->). destruct (bruns_reads _ _ _ _ _ _ c H) as (b & cs & Hr).
  destruct (bruns_at _ _ _ _ _ _ H _ _ _ eq_refl) as (m1 & m & m2 & n1 & n2 & -> & Ha & Hb & _).
  destruct (start_phase _ _ _ _ _ _ c Hb) as [Hidle Hph]; [cbn; apply Nat.eqb_refl|].
  pose proof (bwell_on _ _ _ _ _ _ c Ha) as Hw. unfold bwell in Hw. rewrite Hph in Hw. destruct Hw as [_ Hw]. specialize (Hw Hidle).
  assert (Hs : started c pre = []).
  { clear - Hw. induction pre as [|i pre IH]; [reflexivity|]. unfold started, events_of in *. cbn [flat_map] in *. apply app_eq_nil in Hw. destruct Hw as [H1 H2].
    rewrite (IH H2), app_nil_r. destruct i as [e|d o|d]; try reflexivity. destruct e as [d [k0|] ? ?|d k0|d f|d|d|]; try reflexivity; cbn in H1; destruct (Nat.eqb d c); congruence. }
  rewrite started_app, Hs in Hr. cbn [app started flat_map] in Hr. rewrite Nat.eqb_refl in Hr. cbn [app] in Hr. unfold opens_with. eauto.
Qed.
(** With the bytes that arrive: connections whose bytes do not begin with a CONNECT that the broker has to accept might as well
    not be there. The run without their bytes and handlers is possible, and the rest is the same after it. *)
Theorem C119_bytes cfg p st ms tr n out : bruns cfg p (bnet_on st) ms tr n ->
  (forall c k, out c = true -> opens_with p c (net_part ms) (Connect k) -> ~ accepts cfg k) ->
  exists n', bruns cfg p (bnet_on st) (unmoved out ms) (without out tr) n' /\ cn_world (bn_conf n') = cn_world (bn_conf n)
    /\ (forall c o, out c = true -> In (IStep c o) tr -> exists q, o = OOut q /\ refusal c q)
    /\ forall c, out c = false -> bn_tasks n' c = bn_tasks n c /\ aget Nat.eqb c (cn_tasks (bn_conf n')) = aget Nat.eqb c (cn_tasks (bn_conf n))
        /\ outputs_of c (without out tr) = outputs_of c tr.
Proof.
  intros H Hn. assert (Hl : forall c, out c = true -> never_let_in cfg c tr).
  { intros c Hc k u a Hi. apply (Hn c k Hc). eapply opens_first; eauto. }
  destruct (refused_bruns cfg out p _ _ _ _ H _ (shut_on _ st) (nbare_on _ st) Hl) as (n' & H1 & [[B1 B2 B3 B4 B5] Ht]).
  assert (Hm := bruns_conf _ _ _ _ _ _ H). exists n'. split; [exact H1|]. split; [exact B1|]. split.
  - intros c o Hc. apply (C119_only_refused _ _ _ _ _ _ Hm (Hl c Hc)).
  - intros c Hc. split; [auto|]. split; [auto|]. apply without_other; [exact Hc|]. eapply no_restart; eauto.
Qed.
Print Assumptions C119_bytes.

(** A client with a password, one without and one that begins with a PUBLISH. *)
Definition ex_login (id u w : string) : connect_packet :=
  Mk_connect_packet V5 (Mk_connect_flags true true false AtMostOnce false true) 60 None
    (Mk_connect_payload (str id) None None None (Some (str u)) (Some (str w))).
Definition ex_in : list packet := [Connect (ex_login "a" "bob" "pw"); Subscribe (Mk_subscribe_packet 7 None [(str "x", ex_options)])].
Definition ex_bad : list packet := [Connect (ex_login "a" "bob" "wrong"); Publish (ex_publish AtLeastOnce (Some 3) true "x" "v")].
Definition ex_rude : list packet := [Publish (ex_publish AtLeastOnce (Some 3) true "x" "v")].
Definition ex_door : list bmove :=
  [BNet (NArrive 1 (ex_bytes ex_in)); BNet (NArrive 2 (ex_bytes ex_bad)); BNet (NArrive 3 (ex_bytes ex_rude))] ++ bpolls [1; 2; 3]%nat ++
  brounds 40 [3; 1; 2]%nat ++ bpolls [3; 2; 1]%nat ++ brounds 40 [1; 2; 3]%nat.
Definition ex_out (c : nat) : bool := Nat.eqb c 2 || Nat.eqb c 3.
Definition ex_run := bexec ex_closed Base.Release ex_door (bnet_on mem_new).
Example C119_ex : bruns ex_closed Base.Release (bnet_on mem_new) (snd (fst ex_run)) (snd ex_run) (fst (fst ex_run))
  /\ (forall c k, ex_out c = true -> opens_with Base.Release c (net_part (snd (fst ex_run))) (Connect k) -> ~ accepts ex_closed k)
  /\ length (outputs_of 1 (snd ex_run)) = 2%nat
  /\ outputs_of 2 (snd ex_run) = [Sent 2 (ConnAck (Mk_connack_packet V5 false BadUserNameOrPassword None)); Closed 2]
  /\ outputs_of 3 (snd ex_run) = [Closed 3]
  /\ (exists k, opens_with Base.Release 1 (net_part (snd (fst ex_run))) (Connect k) /\ accepts ex_closed k).
Proof.
  assert (Hr : bruns ex_closed Base.Release (bnet_on mem_new) (snd (fst ex_run)) (snd ex_run) (fst (fst ex_run))) by apply bexec_runs.
  split; [exact Hr|]. split.
  { intros c k Hc (ks & b & cs & Ho). destruct (bruns_reads _ _ _ _ _ _ c Hr) as (b' & cs' & Hr').
    assert (Hs : started c (snd ex_run) = map canon (if Nat.eqb c 2 then [Connect (ex_login "a" "bob" "wrong")] else ex_rude)).
    { unfold ex_out in Hc. destruct (Nat.eqb_spec c 2) as [->|]; [vm_compute; reflexivity|]. destruct (Nat.eqb_spec c 3) as [->|]; [vm_compute; reflexivity|discriminate]. }
    rewrite Hs in Hr'. destruct (Nat.eqb c 2); cbn [map] in Hr'; assert (E := reads_head _ _ _ _ _ _ _ Hr' _ _ _ _ Ho).
    - rewrite <- authenticated_iff. replace k with (match canon (Connect (ex_login "a" "bob" "wrong")) with Connect k => k | _ => k end) by (rewrite <- E; reflexivity).
      vm_compute. discriminate.
    - cbn in E. discriminate. }
  split; [vm_compute; reflexivity|]. split; [vm_compute; reflexivity|]. split; [vm_compute; reflexivity|].
  destruct (bruns_reads _ _ _ _ _ _ 1%nat Hr) as (b' & cs' & Hr').
  replace (started 1 (snd ex_run)) with (map canon ex_in) in Hr' by (vm_compute; reflexivity).
  exists (match canon (Connect (ex_login "a" "bob" "pw")) with Connect k => k | _ => ex_login "" "" "" end). split.
  - exists (map canon (tl ex_in)), b', cs'. exact Hr'.
  - apply authenticated_iff. vm_compute. reflexivity.
Qed.
