(** Property C108: wills and a broker that stops, at whatever point of whatever schedule of concurrent handlers. *)
From Coq Require Import String.
From Verif Require Import Base Utf8 Codec SpecCodec Tac CodecFacts Str Maps Topic SpecTopic TopicFacts Property PacketProps Packets
  TopicTree TreeFacts Storage SpecStorage StorageFacts Broker SpecBroker BrokerFacts Auth Session Server SpecServer SessionFacts ServerFacts
  HandlerFacts HistoryFacts ProvenanceFacts WorldFacts DeliveryFacts StoreFacts ConnectFacts ResumeFacts Crash CrashFacts Examples
  Conc SpecConc ConcFacts ConcRoute ConcOwn ConcDeliver ConcProv ConcWill WillFacts SpecLives ConcLives SpecDurable ConcStore ConcHold ConcTestament ConcRenew ConcLocks
  Properties_Routing Properties_Crash Properties_Conc Properties_Provenance Properties_Races Properties_Durable.
From Coq Require Import Lia.
Local Open Scope list_scope.

(** ** Lemmas *)
Lemma comes_back_will cfg st id d w' o x y : comes_back cfg (recover st) id d w' o -> mem_load_session id st = Some x -> mem_get_will id st = Some y ->
  exists j s', serves w' d j s' /\ se_will s' = Some y.
Proof.
  intros (q & v & Hn & Ha & <- & Hcl & H) Hx Hy. apply authenticated_iff in Ha.
  assert (Hwf : wf (recover st)) by (split; intros ? ? E; discriminate).
  destruct (connect_accept _ _ _ _ _ _ _ Hwf Hn Ha H) as (i & subs & wl & infl & s & s1 & Hac).
  pose proof (ac_entered _ _ _ _ _ _ _ _ _ _ _ _ _ Hac) as Hen. inversion Hen as [s0 Hc Hx0 Hi|? ? ? Hl Hor _ Hld]; subst; [discriminate|].
  destruct (Hld Hcl) as (_ & Hwl & _). change (w_store (recover st)) with st in Hwl. unfold presented in Hx, Hy. rewrite Hx, Hy in Hwl. subst wl.
  eexists. eexists. split; [split; [rewrite (ac_conns _ _ _ _ _ _ _ _ _ _ _ _ _ Hac); apply aget_put_same, nateqb_spec|apply (ac_session _ _ _ _ _ _ _ _ _ _ _ _ _ Hac)]|].
  reflexivity.
Qed.
Lemma owns_lone c id tr : owns c id tr -> lone c tr.
Proof.
  intros [H1 H2] d id' (k & u & a & Hin & <-) (k2 & u2 & a2 & Hin2 & Hp). assert (E : presented k = id) by (apply H1; exists k, u, a; auto).
  apply H2. exists k2, u2, a2. split; [exact Hin2|]. left. congruence.
Qed.
Lemma own_key {st0} cfg TR x c id p r id' {Hsane : Sane cfg st0} : mruns cfg (conf_on st0) TR x -> (forall d, Forall texts (events_of d TR)) -> owns c id TR ->
  In (IStep c (OStore p r)) TR -> key p = Some id' -> id' = id.
Proof.
  intros Hr Ht Ho Hin Hk. destruct (keyed_runs cfg TR Ht _ _ _ Hr [] []) as [_ H]; [now rewrite app_nil_r|constructor|discriminate|].
  destruct (H _ _ _ Hin) as [_ Hk2]. destruct (Hk2 _ Hk) as (e & He1 & He2). apply (owns_linked _ _ _ _ Ho) in He1. subst e. apply Ho, He2.
Qed.
Definition deletion (c : nat) (j : item) : bool := match j with IStep d (OStore (DeleteWill _) _) => Nat.eqb d c | _ => false end.
Lemma deletion_dec c tr : (exists p1 id r p2, tr = p1 ++ IStep c (OStore (DeleteWill id) r) :: p2) \/ forall id r, ~ In (IStep c (OStore (DeleteWill id) r)) tr.
Proof.
  induction tr as [|j tr IH]; [right; intros id r []|]. destruct (deletion c j) eqn:E.
  - left. destruct j as [|d o|]; try discriminate. destruct o as [| | | | | |p r| | | | | | |]; try discriminate. destruct p; try discriminate.
    apply Nat.eqb_eq in E. subst d. exists [], client, r, tr. reflexivity.
  - destruct IH as [(p1 & id & r & p2 & ->)|H]; [left; exists (j :: p1), id, r, p2; reflexivity|right]. intros id r [Hj|Hin]; [|eapply H; exact Hin].
    subst j. cbn [deletion] in E. rewrite Nat.eqb_refl in E. discriminate.
Qed.
Lemma granted_later {st0} cfg f a b y {Hsane : Sane cfg st0} : mruns cfg (conf_on st0) (a ++ b) y -> (forall d, Forall texts (events_of d a)) -> topic_filter f -> granted f a ->
  node_at (levels f) (tree y) <> None.
Proof.
  intros Hy Ht Hf G. apply mruns_app in Hy. destruct Hy as (z & Hz & Hy). eapply node_runs; [exact Hy|].
  destruct (granted_sub cfg f a z Hz Ht Hf G) as (d & n & Hi). apply in_split in Hi. destruct Hi as (u & v & ->). eapply sub_node. exact Hz.
Qed.
(** When the handler of a CONNECT is done, the will is in the store. *)
Lemma will_stored {st0} cfg c id k u w pre mid post tr x i y {Hsane : Sane cfg st0} : mruns cfg (conf_on st0) tr x -> (forall d, Forall texts (events_of d tr)) -> owns c id tr ->
  handled c (EFirst c (Some (Connect k)) u true) pre mid post tr -> ~ opened c pre -> accepts cfg k -> cf_clean_start (c_flags k) = true \/ unfound c mid ->
  mruns cfg (conf_on st0) (pre ++ IStart (EFirst c (Some (Connect k)) u true) :: mid ++ [IEnd c]) y ->
  aget Nat.eqb c (w_conns (cn_world y)) = Some i -> (exists s, nth_error (w_heap (cn_world y)) i = Some s /\ se_will s = Some w) ->
  (forall d s s', In (IStep d (OSess i s s')) tr -> d = c) ->
  mem_get_will id (w_store (cn_world y)) = Some w.
Proof.
  intros Hr Ht Ho Hh Hop Hacc Hcl Hy Hci (sy & Hsy & Hwy) Honly. pose proof Hh as (Htr & _ & Hend).
  assert (Hin : forall j, In j mid -> In j tr) by (intros j Hj; rewrite Htr; apply in_or_app; right; right; apply in_or_app; left; exact Hj).
  destruct (start_at _ _ _ _ _ _ Hy) as (y0 & Hy0 & Hi0 & _ & H2). cbn [event_conn] in *.
  assert (Hc : aget Nat.eqb c (w_conns (cn_world y0)) = None).
  { destruct (aget Nat.eqb c (w_conns (cn_world y0))) eqn:E; [|reflexivity]. exfalso. apply Hop.
    apply (open_conns cfg c pre y0 Hy0); [specialize (Ht c); rewrite Htr in Ht; eapply event_texts; eauto|exact Hi0|eauto]. }
  rewrite Hc in H2. cbn [handler] in H2. apply authenticated_iff in Hacc. set (x1 := Mk_conf _ _ _ _) in H2.
  assert (Hx1 : aget Nat.eqb c (cn_tasks x1) = Some (connect_code cfg c k u true)) by apply (aget_put_same _ nateqb_spec).
  destruct (run_task _ _ _ _ H2 c _ _ (fun _ => True) Hx1 (wps_leaves cfg c k u Hacc) (always_true _)) as [_ Hs].
  destruct (Hs mid [] eq_refl Hend) as [(j & s & l1 & l2 & l3 & Hl & Hl3 & Hl2)|(Hcf & id0 & x0 & Hin0)];
    [|destruct Hcl as [Hcl|Hcl]; [congruence|destruct (Hcl id0 x0); apply steps_in, Hin0]]. rewrite Forall_forall in Hl3.
  destruct (steps_split _ _ _ _ _ Hl) as (m1 & m2 & Hmid & _ & Hm2).
  apply mruns_app in H2. destruct H2 as (z & Hz & Hzy).
  assert (Hyz : cn_world y = cn_world z).
  { inversion Hzy as [|? m y' ? ? ? Hse Hyx]; subst. inversion Hyx; subst. apply mstep_inv in Hse.
    destruct Hse as [(e & -> & E & _)|[(d & -> & E & Hd & ->)|(d & k0 & o' & k2 & -> & E & _)]]; try discriminate. reflexivity. }
  rewrite Hyz in *. pose proof Hz as Hz1. rewrite Hmid in Hz1. destruct (step_at _ _ _ _ _ _ _ Hz1) as (v & kv & kv1 & Hv & Hkv & Hnv & _ & Hv2).
  (* the session that was looked at is the one the connection is attached to *)
  assert (E2 : steps_of c m2 = (l2 ++ ORelease LManager :: l3) ++ OAttach j :: []) by (rewrite Hm2, <- app_assoc; reflexivity).
  destruct (steps_split _ _ _ _ _ E2) as (m3 & m4 & Hm & _ & Hm4).
  pose proof Hv2 as Hv3. rewrite Hm in Hv3. destruct (step_at _ _ _ _ _ _ _ Hv3) as (t & kt & kt1 & _ & _ & _ & _ & Ht2).
  assert (Hcz : aget Nat.eqb c (w_conns (cn_world z)) = Some j).
  { rewrite (conns_runs _ _ _ _ c Ht2); [|rewrite Hm4; constructor]. cbn [cn_world apply]. apply (aget_put_same _ nateqb_spec). }
  assert (j = i) by congruence. subst j.
  assert (Hws : se_will s = Some w).
  { destruct (will_runs _ _ _ _ i s Hv2) as (sz & E3 & E4).
    - intros d o' Hio. destruct (Nat.eq_dec d c) as [->|Hdc].
      + assert (Hi : In o' (l2 ++ ORelease LManager :: l3 ++ [OAttach i])) by (rewrite <- Hm2; apply steps_in; exact Hio).
        apply in_app_iff in Hi. destruct Hi as [Hi|[<-|Hi]]; [|exact I|apply in_app_iff in Hi; destruct Hi as [Hi|[<-|[]]]; [apply Hl3, Hi|exact I]]. destruct (se_will s); [destruct Hl2 as (id' & r & ->)|subst l2; destruct Hi].
        destruct Hi as [<-|[]]. exact I.
      + destruct o'; try exact I. intros ->. exfalso. apply Hdc. eapply Honly. apply Hin. rewrite Hmid. apply in_or_app. right. right. exact Hio.
    - cbn [cn_world]. eapply heap_sess. eapply sess_at. exact Hnv.
    - congruence. }
  rewrite Hws in Hl2. destruct Hl2 as (id' & r & ->). cbn [app] in Hm2.
  destruct (steps_split c m2 [] (OStore (StoreWill id' w) r) _ Hm2) as (m5 & m6 & Hm56 & _ & Hm6).
  assert (Hin2 : forall q, In q m2 -> In q tr) by (intros q Hq; apply Hin; rewrite Hmid; apply in_or_app; right; right; exact Hq).
  assert (Hid : id' = id).
  { eapply (own_key cfg tr x c id (StoreWill id' w) r); eauto. apply Hin2. rewrite Hm56. apply in_or_app. right. left. reflexivity. }
  subst id'. pose proof Hv2 as Hv4. rewrite Hm56 in Hv4. destruct (step_at _ _ _ _ _ _ _ Hv4) as (q & kq & kq1 & _ & _ & Hnq & _ & Hq2).
  rewrite (will_kept _ _ _ _ id Hq2).
  - cbn [cn_world]. change (w_store (apply c (OStore (StoreWill id w) r) (cn_world q))) with (snd (mem_step (w_store (cn_world q)) (StoreWill id w))).
    cbn [mem_step snd]. unfold mem_get_will. cbn [mem_store_will ms_wills]. apply (aget_put_same _ beqb_spec).
  - intros d p r' Hp. destruct (Nat.eq_dec d c) as [->|Hd].
    + apply steps_in in Hp. rewrite Hm6 in Hp. destruct Hp as [Hp|Hp]; [discriminate|]. apply in_app_iff in Hp. destruct Hp as [Hp|[Hp|[]]]; [|discriminate].
      apply Hl3 in Hp. destruct Hp as [_ Hp]. destruct p; cbn [spares_will]; auto; contradiction.
    + assert (Hk : key p <> Some id).
      { eapply (nobody_else cfg tr x c id Hr Ht Ho d (OStore p r')); [|exact Hd|reflexivity]. apply Hin2. rewrite Hm56. apply in_or_app. right. right. exact Hp. }
      destruct p; cbn [spares_will key] in *; auto; congruence.
Qed.

(** ** C108 *)
Lemma sent_or_stored {st} cfg tr x c id k u w pre mid post {Hsane : Sane cfg st} :
  mruns cfg (conf_on st) tr x -> (forall d, Forall texts (events_of d tr)) -> owns c id tr ->
  handled c (EFirst c (Some (Connect k)) u true) pre mid post tr -> ~ opened c pre -> accepts cfg k -> cf_clean_start (c_flags k) = true \/ mem_get_will id st = None ->
  declares k w -> topic_name (wl_topic w) -> remains c post ->
  (exists m, announces w m /\ forall f, topic_filter f -> matches f (wl_topic w) ->
     granted f (pre ++ IStart (EFirst c (Some (Connect k)) u true) :: mid) -> In m (routed_by c f post))
  \/ exists y, mem_load_session id (w_store (cn_world x)) = Some y /\ mem_get_will id (w_store (cn_world x)) = Some w.
Proof.
  intros Hr Ht Ho Hh Hop Hacc Hcl Hdw Htn Hre.  pose proof Hh as (Htr & _ & Hend).
  assert (Hcl' : cf_clean_start (c_flags k) = true \/ unfound c mid).
  { destruct Hcl as [Hcl|Hcl]; [left; exact Hcl|right]. intros i0 x0 H0. apply (finds_none id cfg tr x c Hr Ht Ho Hcl i0 x0). rewrite Htr. apply in_or_app. right. right. apply in_or_app. left. exact H0. }
  clear Hcl. rename Hcl' into Hcl.
  destruct (connected _ _ _ _ _ _ _ _ _ Hr (Ht c) (owns_lone _ _ _ Ho) Hh Hop Hacc Hcl) as (i & y & Hy & Hyx & Hv & Hi & Honly).
  unfold serving in Hv. unfold idle in Hi. rewrite Hi in Hv. apply declares_iff in Hdw. rewrite Hdw in Hv. destruct Hv as [Hci Hs].
  pose proof (will_stored _ _ _ _ _ _ _ _ _ _ _ _ _ Hr Ht Ho Hh Hop Hacc Hcl Hy Hci Hs Honly) as Hst.
  assert (E : tr = (pre ++ IStart (EFirst c (Some (Connect k)) u true) :: mid ++ [IEnd c]) ++ post) by (rewrite Htr, <- app_assoc; cbn; rewrite <- app_assoc; reflexivity).
  assert (Hinp : forall j, In j post -> In j tr) by (intros j Hj; rewrite E; apply in_or_app; right; exact Hj).
  assert (Hw0 : watched c i w [] y).
  { destruct Hs as (s & Hs1 & Hs2). exists s. split; [exact Hs1|]. split; [right; exact Hci|]. rewrite Hi. auto. }
  assert (Hev : forall e, In (IStart e) post -> event_conn e = c -> (forall d k u a, e <> EFirst d k u a) /\ (forall d k, e <> EPacket d (Disconnect k))).
  { intros e He Hec. destruct (Hre e He) as [R1 R2]. split.
    - intros d q v a ->. cbn [event_conn] in Hec. subst d. apply (R2 q v a eq_refl).
    - intros d q ->. cbn [event_conn] in Hec. subst d. apply (R1 q eq_refl). }
  assert (Honp : forall d s s', In (IStep d (OSess i s s')) post -> d = c) by (intros d s s' Hd; eapply Honly, Hinp, Hd).
  pose proof (watched_runs cfg c i w _ _ _ Hyx [] Hw0 Honp Hev) as HW.
  destruct (deletion_dec c post) as [(p1 & id' & r & p2 & Ep)|Hnd].
  - left. exists (will_message w). split; [repeat split|]. intros f Hf Hm G.
    destruct (HW _ _ _ _ Ep) as (a & e & b & E1 & Hec & _ & h0 & n & h1 & Hh0). cbn [app] in E1. subst p1.
    destruct (steps_split _ _ _ _ _ Hh0) as (b1 & b2 & Hb & _ & Hb2).
    assert (Hr1 : mruns cfg (conf_on st) ((pre ++ IStart (EFirst c (Some (Connect k)) u true) :: mid ++ [IEnd c] ++ a ++ IStart e :: b1) ++ IStep c (OWalk (wl_topic w) (targets (wl_topic w) n)) ::
        b2 ++ IStep c (OStore (DeleteWill id') r) :: p2) x).
    { rewrite E, Ep, Hb in Hr. repeat (rewrite <- app_assoc in Hr; cbn [app] in Hr). repeat (rewrite <- app_assoc; cbn [app]). exact Hr. }
    destruct (walk_at _ _ _ _ _ _ _ _ Hr1) as (t & Hrt & Hn).
    assert (Hnode : node_at (levels f) (tree t) <> None).
    { eapply (granted_later cfg f (pre ++ IStart (EFirst c (Some (Connect k)) u true) :: mid) ([IEnd c] ++ a ++ IStart e :: b1) t); [| |exact Hf|exact G].
      - rewrite <- app_assoc. exact Hrt.
      - intros d. specialize (Ht d). rewrite Htr in Ht. replace (pre ++ IStart (EFirst c (Some (Connect k)) u true) :: mid ++ IEnd c :: post)
          with ((pre ++ IStart (EFirst c (Some (Connect k)) u true) :: mid) ++ IEnd c :: post) in Ht by (rewrite <- app_assoc; reflexivity). eapply texts_app_l, Ht. }
    assert (Hlev : In (levels f) (targets (wl_topic w) n)).
    { rewrite Hn. apply (count_occ_In path_eq_dec). rewrite (count_targets _ _ _ Htn). destruct (matches_dec f (wl_topic w)); [|contradiction].
      destruct (node_at (levels f) (tree t)); [cbn [is_some]; lia|congruence]. }
    unfold routed_by. apply in_flat_map. exists (OSend (levels f) (will_message w)). split.
    + apply steps_in. rewrite Ep, Hb. apply in_or_app. left. apply in_or_app. right. right. apply in_or_app. right. right.
      apply steps_in. rewrite Hb2. apply in_or_app. left. apply in_map_iff. eauto.
    + cbn [sent_by]. destruct (list_eq_dec _ _ _); [left; reflexivity|congruence].
  - right.
    assert (Hwx : mem_get_will id (w_store (cn_world x)) = Some w).
    { rewrite (will_kept _ _ _ _ id Hyx); [exact Hst|]. intros e p r Hp. destruct (Nat.eq_dec e c) as [->|He].
      - destruct p; cbn [spares_will]; auto.
        + apply in_split in Hp. destruct Hp as (p1 & p2 & Ep). destruct (HW _ _ _ _ Ep).
        + destruct (Hnd _ _ Hp).
      - assert (Hk : key p <> Some id) by (eapply (nobody_else cfg tr x c id Hr Ht Ho e (OStore p r)); [apply Hinp, Hp|exact He|reflexivity]).
        destruct p; cbn [spares_will key] in *; auto; congruence. }
    pose proof (registered_at cfg tr x c id 0 Hr Ht Ho _ post y E Hy) as Hreg. unfold registered in Hreg. rewrite Hi in Hreg. destruct (Hreg i Hci) as (Hm & (s & Hsi) & Hen).
    destruct (held_kept c id 0 i (fun _ => False) False noflight x) as (s2 & _ & _ & (st2 & Hst2 & _) & _).
    { eapply (held_runs cfg tr x c id 0 Hr Ht Ho i (fun _ => False) False noflight Hm _ _ _ Hyx _ []); [rewrite app_nil_r; exact E|exact Hy| |].
      - intros j Hj. split.
        + intros e -> Hec. destruct (Hre e Hj) as [S1 S2]. destruct e as [c0 fi v b|c0 q|c0 g|c0|c0|]; cbn [event_conn] in Hec; subst; cbn [spares]; auto.
          * eapply S2. reflexivity.
          * destruct q; auto; contradiction.
        + intros q r' _. red. contradiction.
      - split; [left; exact Hci|]. exists s. split; [exact Hsi|]. rewrite Hi. apply kept_entry. exact Hen. }
    exists st2. split; [exact Hst2|exact Hwx].
Qed.
(** A client whose identifier nobody else uses has connected with a will, with clean start or when no life before has left a will
    of this client in the store, and does not disconnect. Whenever the broker stops, the will has been sent to every matching filter that was granted when the client connected, or the next
    connection of the client without clean start has it (and C45 says when it is published then). *)
Theorem C108_not_lost_partial cfg trs st tr x c id k u w pre mid post :
  lives cfg trs st -> mruns cfg (conf_on st) tr x -> (forall d, Forall texts (events_of d tr)) -> owns c id tr ->
  handled c (EFirst c (Some (Connect k)) u true) pre mid post tr -> ~ opened c pre -> accepts cfg k -> cf_clean_start (c_flags k) = true \/ mem_get_will id st = None ->
  declares k w -> topic_name (wl_topic w) -> remains c post ->
  (exists m, announces w m /\ forall f, topic_filter f -> matches f (wl_topic w) ->
     granted f (pre ++ IStart (EFirst c (Some (Connect k)) u true) :: mid) -> In m (routed_by c f post))
  \/ forall d w' o', comes_back cfg (recover (w_store (cn_world x))) id d w' o' -> exists j s', serves w' d j s' /\ se_will s' = Some w.
Proof.
  intros Hlv Hr Ht Ho Hh Hop Hacc Hcl Hdw Htn Hre. pose proof (lives_sane _ _ _ Hlv) as Hsane.
  destruct (sent_or_stored _ _ _ _ _ _ _ _ _ _ _ Hr Ht Ho Hh Hop Hacc Hcl Hdw Htn Hre) as [H|(y & Hy & Hw)]; [left; exact H|right].
  intros d w' o' Hb. eapply comes_back_will; eauto.
Qed.
Print Assumptions C108_not_lost_partial.

(** Client "s" subscribes to "gone", client "a" connects with a will for "gone"; then the connection of "a" is lost and its
    handler makes [n] steps before the broker stops. *)
Definition ex_stopped (n : nat) : list move :=
  starts [ex_first 2 (ex_connect "s" true)] ++ rounds 40 [2]%nat ++ starts [ex_sub 2 "gone"] ++ rounds 40 [2]%nat ++
  starts [ex_first 1 (ex_connect_will "a" true "gone" "W")] ++ rounds 40 [1]%nat ++ starts [EEnd 1] ++ rounds n [1]%nat ++ starts [EOut 2 (str "gone")] ++ rounds 40 [2]%nat.
Definition ex_st (n : nat) := snd (mexec ex_open (ex_stopped n) conf_new).
Definition ex_sx (n : nat) := fst (mexec ex_open (ex_stopped n) conf_new).
Lemma ex_st_owns tr : comers tr = [(2%nat, str "s", str "uuid"); (1%nat, str "a", str "uuid")] -> owns 1 (str "a") tr.
Proof.
  intros H. apply owns_comers. rewrite H.
  intros d i u [E|[E|[]]]; injection E as <- <- <-; (split; [discriminate|]); [right; split; discriminate|left; auto].
Qed.
Example C108_ex n : In n [0; 3; 20]%nat ->
  let tr := ex_st n in let k := ex_connect_will "a" true "gone" "W" in let w := Mk_will (str "gone") (str "W") AtMostOnce false in
  mruns ex_open conf_new tr (ex_sx n) /\ (forall d, Forall texts (events_of d tr)) /\ owns 1 (str "a") tr
  /\ handled 1 (ex_first 1 k) (part1 1 0 tr) (part2 1 0 tr) (part3 1 0 tr) tr /\ ~ opened 1 (part1 1 0 tr) /\ accepts ex_open k
  /\ declares k w /\ topic_name (wl_topic w) /\ remains 1 (part3 1 0 tr)
  /\ topic_filter (str "gone") /\ matches (str "gone") (wl_topic w) /\ granted (str "gone") (part1 1 0 tr ++ IStart (ex_first 1 k) :: part2 1 0 tr)
  /\ (exists w' o', comes_back ex_open (recover (w_store (cn_world (ex_sx n)))) (str "a") 5 w' o')
  /\ (length (routed_by 1 (str "gone") (part3 1 0 tr)), is_some (mem_get_will (str "a") (w_store (cn_world (ex_sx n))))) =
     match n with O => (0%nat, true) | 3%nat => (1%nat, true) | _ => (1%nat, false) end.
Proof.
  intros Hn tr k w.
  split; [apply mexec_runs|]. split; [apply texts_all; destruct Hn as [<-|[<-|[<-|[]]]]; vm_compute; reflexivity|].
  split; [apply ex_st_owns; destruct Hn as [<-|[<-|[<-|[]]]]; vm_compute; reflexivity|].
  split; [destruct Hn as [<-|[<-|[<-|[]]]]; apply handled_parts; vm_compute; reflexivity|].
  split; [destruct Hn as [<-|[<-|[<-|[]]]]; vm_compute; discriminate|]. split; [left; reflexivity|]. split; [repeat split|].
  split; [name_tac|].
  split.
  { assert (Hp : all_events (part3 1 0 tr) = [EEnd 1; EOut 2 (str "gone")]) by (destruct Hn as [<-|[<-|[<-|[]]]]; vm_compute; reflexivity).
    intros e Hi. apply in_events in Hi. rewrite Hp in Hi. destruct Hi as [<-|[<-|[]]]; split; discriminate. }
  split; [filter_tac|]. split; [match_tac|].
  split.
  { destruct Hn as [<-|[<-|[<-|[]]]];
      (eapply (ex_granted 2 1 _ _ (_ ++ IStart _ :: part2 1 0 _)); [vm_compute; reflexivity|vm_compute; reflexivity|left; reflexivity|vm_compute; reflexivity|vm_compute; reflexivity]). }
  split; [|destruct Hn as [<-|[<-|[<-|[]]]]; vm_compute; reflexivity].
  destruct Hn as [<-|[<-|[<-|[]]]]; do 2 eexists; exists (ex_connect "a" false), [];
    (split; [reflexivity|]; split; [left; reflexivity|]; split; [reflexivity|]; split; [reflexivity|]; vm_compute; reflexivity).
Qed.
(** After the stop, client "s" comes back; then "a" comes back without a will, and is lost again. *)
Definition ex_later (clean : bool) : list event :=
  [ex_first 2 (ex_connect "s" false); ex_first 1 (ex_connect "a" clean); EEnd 1; EOut 2 (str "gone")].
Definition payloads (l : list publish_packet) : list (option bytes) := map pb_payload l.
(** The will is not published at most once: the broker stops between sending it and deleting it from the store. The client has
    declared it in one CONNECT only. *)
Theorem C108_once_refuted : exists tr x es, let k := ex_connect_will "a" true "gone" "W" in let w := Mk_will (str "gone") (str "W") AtMostOnce false in
  mruns ex_open conf_new tr x /\ owns 1 (str "a") tr /\ events_of 1 tr = [ex_first 1 k; EEnd 1] /\ declares k w
  /\ es = [ex_first 2 (ex_connect "s" false); ex_first 1 (ex_connect "a" false); EEnd 1; EOut 2 (str "gone")] /\ (forall w', ~ declares (ex_connect "a" false) w')
  /\ payloads (deliveries 2 (str "gone") (outputs_of 2 tr)) = [Some (wl_payload w)]
  /\ payloads (deliveries 2 (str "gone") (snd (run ex_open es (recover (w_store (cn_world x)))))) = [Some (wl_payload w)].
Proof.
  exists (ex_st 3), (ex_sx 3), (ex_later false). intros k w. split; [apply mexec_runs|]. split; [apply ex_st_owns; vm_compute; reflexivity|].
  split; [vm_compute; reflexivity|]. split; [repeat split|]. split; [reflexivity|]. split; [intros w' (H & _); discriminate|]. split; vm_compute; reflexivity.
Qed.
Print Assumptions C108_once_refuted.
(** Nor at least once: the broker stops just when the connection is lost, and the client comes back with clean start. It never
    disconnects, and its will for a filter that was granted all along is sent neither before nor after the stop. *)
Theorem C108_clean_start_refuted : exists tr x es, let k := ex_connect_will "a" true "gone" "W" in let w := Mk_will (str "gone") (str "W") AtMostOnce false in
  mruns ex_open conf_new tr x /\ owns 1 (str "a") tr /\ events_of 1 tr = [ex_first 1 k; EEnd 1] /\ declares k w /\ granted (str "gone") (part1 1 0 tr)
  /\ es = [ex_first 2 (ex_connect "s" false); ex_first 1 (ex_connect "a" true); EEnd 1; EOut 2 (str "gone")]
  /\ routed (str "gone") tr = []
  /\ deliveries 2 (str "gone") (snd (run ex_open es (recover (w_store (cn_world x))))) = []
  /\ (exists i s, serves (fst (run ex_open es (recover (w_store (cn_world x))))) 2 i s /\ subscribed s (str "gone")).
Proof.
  exists (ex_st 0), (ex_sx 0), (ex_later true). intros k w. split; [apply mexec_runs|]. split; [apply ex_st_owns; vm_compute; reflexivity|].
  split; [vm_compute; reflexivity|]. split; [repeat split|].
  split; [eapply (ex_granted 2 1 _ _ (part1 1 0 _)); [vm_compute; reflexivity|vm_compute; reflexivity|left; reflexivity|vm_compute; reflexivity|vm_compute; reflexivity]|].
  split; [reflexivity|]. split; [vm_compute; reflexivity|]. split; [vm_compute; reflexivity|].
  do 2 eexists. split; [split; vm_compute; reflexivity|]. vm_compute. left. reflexivity.
Qed.
Print Assumptions C108_clean_start_refuted.
(** Nor from the CONNACK on: the broker stops between the CONNACK and the storing of the will. The will is never published,
    although the client never disconnects and comes back without clean start before it is lost again. *)
Definition ex_early : list move :=
  starts [ex_first 2 (ex_connect "s" true)] ++ rounds 40 [2]%nat ++ starts [ex_sub 2 "gone"] ++ rounds 40 [2]%nat ++
  starts [ex_first 1 (ex_connect_will "a" true "gone" "W")] ++ rounds 11 [1]%nat.
Theorem C108_connack_refuted : exists tr x es a, let k := ex_connect_will "a" true "gone" "W" in let w := Mk_will (str "gone") (str "W") AtMostOnce false in
  mruns ex_open conf_new tr x /\ owns 1 (str "a") tr /\ events_of 1 tr = [ex_first 1 k] /\ declares k w /\ granted (str "gone") (part1 1 0 tr)
  /\ outputs_of 1 tr = [Sent 1 (ConnAck a)] /\ ca_reason_code a = Success
  /\ es = [ex_first 2 (ex_connect "s" false); ex_first 1 (ex_connect "a" false); EEnd 1; EOut 2 (str "gone")]
  /\ routed (str "gone") tr = []
  /\ deliveries 2 (str "gone") (snd (run ex_open es (recover (w_store (cn_world x))))) = []
  /\ (exists i s, serves (fst (run ex_open es (recover (w_store (cn_world x))))) 2 i s /\ subscribed s (str "gone")).
Proof.
  exists (snd (mexec ex_open ex_early conf_new)), (fst (mexec ex_open ex_early conf_new)), (ex_later false). eexists. intros k w. split; [apply mexec_runs|].
  split; [apply ex_st_owns; vm_compute; reflexivity|].
  split; [vm_compute; reflexivity|]. split; [repeat split|].
  split; [eapply (ex_granted 2 1 _ _ (part1 1 0 _)); [vm_compute; reflexivity|vm_compute; reflexivity|left; reflexivity|vm_compute; reflexivity|vm_compute; reflexivity]|].
  split; [vm_compute; reflexivity|]. split; [reflexivity|].
  split; [reflexivity|]. split; [vm_compute; reflexivity|]. split; [vm_compute; reflexivity|].
  do 2 eexists. split; [split; vm_compute; reflexivity|]. vm_compute. left. reflexivity.
Qed.
Print Assumptions C108_connack_refuted.

(** The client comes back to a broker that has its session and no will: it connects without clean start and declares one. *)
Definition ex_kept_life1 : list move := starts [ex_first 1 (ex_connect "a" false)] ++ rounds 60 [1]%nat ++ starts [ex_sub 1 "x"] ++ rounds 40 [1]%nat.
Definition ex_kept_left : mem_store := w_store (cn_world (fst (mexec ex_open ex_kept_life1 conf_new))).
Definition ex_kept_life2 (n : nat) : list move :=
  starts [ex_first 2 (ex_connect "s" true)] ++ rounds 40 [2]%nat ++ starts [ex_sub 2 "gone"] ++ rounds 40 [2]%nat ++
  starts [ex_first 1 (ex_connect_will "a" false "gone" "W")] ++ rounds 60 [1]%nat ++ starts [EEnd 1] ++ rounds n [1]%nat ++ starts [EOut 2 (str "gone")] ++ rounds 40 [2]%nat.
Definition ex_kt (n : nat) := snd (mexec ex_open (ex_kept_life2 n) (conf_on ex_kept_left)).
Definition ex_kx (n : nat) := fst (mexec ex_open (ex_kept_life2 n) (conf_on ex_kept_left)).
Example C108_ex2 n : In n [0; 3; 20]%nat ->
  let tr := ex_kt n in let k := ex_connect_will "a" false "gone" "W" in let w := Mk_will (str "gone") (str "W") AtMostOnce false in
  (exists trs, lives ex_open trs ex_kept_left) /\ mem_get_will (str "a") ex_kept_left = None /\ mem_load_session (str "a") ex_kept_left <> None
  /\ mruns ex_open (conf_on ex_kept_left) tr (ex_kx n) /\ (forall d, Forall texts (events_of d tr)) /\ owns 1 (str "a") tr
  /\ handled 1 (ex_first 1 k) (part1 1 0 tr) (part2 1 0 tr) (part3 1 0 tr) tr /\ ~ opened 1 (part1 1 0 tr) /\ accepts ex_open k
  /\ declares k w /\ topic_name (wl_topic w) /\ remains 1 (part3 1 0 tr)
  /\ (length (routed_by 1 (str "gone") (part3 1 0 tr)), is_some (mem_get_will (str "a") (w_store (cn_world (ex_kx n))))) =
     match n with O => (0%nat, true) | 3%nat => (1%nat, true) | _ => (1%nat, false) end.
Proof.
  intros Hn tr k w.
  split; [exists [snd (mexec ex_open ex_kept_life1 conf_new)]; apply (lv_more ex_open [] mem_new (snd (mexec ex_open ex_kept_life1 conf_new)) (fst (mexec ex_open ex_kept_life1 conf_new))); [constructor|exact (mexec_runs ex_open ex_kept_life1 conf_new)|apply texts_all; vm_compute; reflexivity]|].
  split; [vm_compute; reflexivity|]. split; [vm_compute; discriminate|].
  split; [apply mexec_runs|]. split; [apply texts_all; destruct Hn as [<-|[<-|[<-|[]]]]; vm_compute; reflexivity|].
  split; [apply ex_st_owns; destruct Hn as [<-|[<-|[<-|[]]]]; vm_compute; reflexivity|].
  split; [destruct Hn as [<-|[<-|[<-|[]]]]; apply handled_parts; vm_compute; reflexivity|].
  split; [destruct Hn as [<-|[<-|[<-|[]]]]; vm_compute; discriminate|]. split; [left; reflexivity|]. split; [repeat split|].
  split; [name_tac|].
  split; [|destruct Hn as [<-|[<-|[<-|[]]]]; vm_compute; reflexivity].
  assert (Hp : all_events (part3 1 0 tr) = [EEnd 1; EOut 2 (str "gone")]) by (destruct Hn as [<-|[<-|[<-|[]]]]; vm_compute; reflexivity).
  intros e Hi. apply in_events in Hi. rewrite Hp in Hi. destruct Hi as [<-|[<-|[]]]; split; discriminate.
Qed.
(** If a life before has left a will, it is false: the client comes back without clean start and with a new will, and is lost. The old
    will is published, and the new one deleted from the store. *)
Definition ex_old_life1 : list move := starts [ex_first 1 (ex_connect_will "a" false "gone" "OLD")] ++ rounds 60 [1]%nat.
Definition ex_old_left : mem_store := w_store (cn_world (fst (mexec ex_open ex_old_life1 conf_new))).
Theorem C108_left_will_refuted : exists trs st tr x m, let k := ex_connect_will "a" false "gone" "W" in let w := Mk_will (str "gone") (str "W") AtMostOnce false in
  lives ex_open trs st /\ mruns ex_open (conf_on st) tr x /\ owns 1 (str "a") tr /\ events_of 1 tr = [ex_first 1 k; EEnd 1]
  /\ handled 1 (ex_first 1 k) (part1 1 0 tr) (part2 1 0 tr) (part3 1 0 tr) tr /\ ~ opened 1 (part1 1 0 tr) /\ accepts ex_open k /\ declares k w
  /\ granted (str "gone") (part1 1 0 tr) /\ routed (str "gone") tr = [m] /\ mg_payload m = Some (str "OLD")
  /\ mem_get_will (str "a") (w_store (cn_world x)) = None.
Proof.
  exists [snd (mexec ex_open ex_old_life1 conf_new)], ex_old_left, (snd (mexec ex_open (ex_kept_life2 20) (conf_on ex_old_left))), (fst (mexec ex_open (ex_kept_life2 20) (conf_on ex_old_left))). eexists.
  intros k w.
  split; [apply (lv_more ex_open [] mem_new (snd (mexec ex_open ex_old_life1 conf_new)) (fst (mexec ex_open ex_old_life1 conf_new))); [constructor|exact (mexec_runs ex_open ex_old_life1 conf_new)|apply texts_all; vm_compute; reflexivity]|].
  split; [apply mexec_runs|]. split; [apply ex_st_owns; vm_compute; reflexivity|]. split; [vm_compute; reflexivity|].
  split; [apply handled_parts; vm_compute; reflexivity|]. split; [vm_compute; discriminate|]. split; [left; reflexivity|]. split; [repeat split|].
  split; [eapply (ex_granted 2 1 _ _ (part1 1 0 _)); [vm_compute; reflexivity|vm_compute; reflexivity|left; reflexivity|vm_compute; reflexivity|vm_compute; reflexivity]|].
  split; [vm_compute; reflexivity|]. split; [reflexivity|]. vm_compute. reflexivity.
Qed.
Print Assumptions C108_left_will_refuted.

(** ** C92, for clients that keep their session *)
(** C92_will_once_partial for a client that connects with or without clean start, if nobody else uses its identifier and no life before has left a will of
    it in the store. *)
Theorem C92_will_once_kept_partial cfg trs st c id k u pre mid1 seg e mid2 post tr x f :
  lives cfg trs st -> mruns cfg (conf_on st) tr x -> (forall d, Forall texts (events_of d tr)) -> owns c id tr -> mem_get_will id st = None ->
  handled c (EFirst c (Some (Connect k)) u true) pre mid1 (seg ++ IStart e :: mid2 ++ IEnd c :: post) tr ->
  ~ opened c pre -> accepts cfg k -> unclosed c seg ->
  event_of c e = true -> ~ In (IEnd c) mid2 ->
  (forall d, e <> EPacket c (Disconnect d)) -> (forall p, e = EPacket c (Publish p) -> ~ topic_name (pb_topic p)) ->
  (forall w, declares k w -> topic_name (wl_topic w) -> topic_filter f -> In (Closed c) (outputs_of c mid2) ->
     exists m, announces w m
       /\ (matches f (wl_topic w) -> granted f (pre ++ IStart (EFirst c (Some (Connect k)) u true) :: mid1 ++ IEnd c :: seg) -> routed_by c f mid2 = [m])
       /\ (~ matches f (wl_topic w) -> routed_by c f mid2 = [])) /\
  ((forall w, ~ declares k w) \/ ~ In (Closed c) (outputs_of c mid2) -> routed_by c f mid2 = []).
Proof.
  intros Hl Hr Ht Ho Hw Hh Hop Hacc Hun He Hend Hd Hp. pose proof (lives_sane _ _ _ Hl) as Hsane.
  eapply will_once; eauto using owns_lone. right. intros i0 x0 H0. apply (finds_none id cfg tr x c Hr Ht Ho Hw i0 x0).
  destruct Hh as (Htr & _). rewrite Htr. apply in_or_app. right. right. apply in_or_app. left. exact H0.
Qed.
Print Assumptions C92_will_once_kept_partial.
Example C92_ex3 : let tr := ex_kt 20 in exists seg,
  handled 1 (ex_first 1 (ex_connect_will "a" false "gone" "W")) (part1 1 0 tr) (part2 1 0 tr) (seg ++ IStart (EEnd 1) :: part2 1 1 tr ++ IEnd 1 :: part3 1 1 tr) tr
  /\ unclosed 1 seg /\ ~ In (IEnd 1) (part2 1 1 tr) /\ In (Closed 1) (outputs_of 1 (part2 1 1 tr))
  /\ granted (str "gone") (part1 1 1 tr)
  /\ (exists m, announces (Mk_will (str "gone") (str "W") AtMostOnce false) m /\ routed_by 1 (str "gone") (part2 1 1 tr) = [m]).
Proof.
  intros tr. exists (fst (upto (is_start 1) 0 (part3 1 0 tr))).
  assert (H : handled 1 (ex_first 1 (ex_connect_will "a" false "gone" "W")) (part1 1 0 tr) (part2 1 0 tr) (part3 1 0 tr) tr) by (apply handled_parts; vm_compute; reflexivity).
  assert (H2 : handled 1 (EEnd 1) (part1 1 1 tr) (part2 1 1 tr) (part3 1 1 tr) tr) by (apply handled_parts; vm_compute; reflexivity).
  split; [replace (_ ++ _) with (part3 1 0 tr); [exact H|vm_compute; reflexivity]|].
  split; [split; apply not_in_outputs; vm_compute; reflexivity|]. split; [apply H2|]. split; [vm_compute; tauto|].
  split; [eapply (ex_granted 2 1 _ _ (part1 1 1 tr)); [vm_compute; reflexivity|vm_compute; reflexivity|left; reflexivity|vm_compute; reflexivity|vm_compute; reflexivity]|].
  eexists. split; [|vm_compute; reflexivity]. repeat split.
Qed.
