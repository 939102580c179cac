(** Properties C87-C91: handlers of different connections that run at the same time, whatever store [st0] the broker
    starts on.
    Every theorem is followed by a concrete case meeting its hypotheses. *)
From Coq Require Import String.
From Verif Require Import Base Utf8 Codec SpecCodec Tac CodecFacts Str Maps Topic SpecTopic TopicFacts Property PacketProps Packets
  TopicTree TreeFacts Storage StorageFacts Broker SpecBroker BrokerFacts Auth Session Server SpecServer SessionFacts ServerFacts HandlerFacts
  Conc SpecConc ConcFacts ConcLocks ConcRoute ConcOwn ConcDeliver Examples Properties_Routing.

(** ** Schedules for the examples *)
(** The given moves, as far as possible. *)
Fixpoint mexec (cfg : config) (ms : list move) (x : conf) : conf * list item :=
  match ms with
  | [] => (x, [])
  | m :: ms =>
      match mstep cfg x m with
      | None => mexec cfg ms x
      | Some (x1, i) => let '(x2, tr) := mexec cfg ms x1 in (x2, i :: tr)
      end
  end.
Lemma mexec_runs cfg ms : forall x, mruns cfg x (snd (mexec cfg ms x)) (fst (mexec cfg ms x)).
Proof.
  induction ms as [|m ms IH]; intros x; simpl; [constructor|]. destruct (mstep cfg x m) as [[x1 i]|] eqn:E; [|apply IH].
  specialize (IH x1). destruct (mexec cfg ms x1) as [x2 tr]. econstructor; eauto.
Qed.
(** [n] rounds in which each of [cs] makes a step. *)
Definition rounds (n : nat) (cs : list nat) : list move := concat (repeat (map MGo cs) n).
Definition starts (es : list event) : list move := map MStart es.

(** The trace up to the [n]-th event of connection [c], what happens until its handler returns, and the rest. *)
Fixpoint upto (f : item -> bool) (n : nat) (tr : list item) : list item * list item :=
  match tr with
  | [] => ([], [])
  | i :: tr => if f i then match n with O => ([], tr) | S n => let '(a, b) := upto f n tr in (i :: a, b) end
               else let '(a, b) := upto f n tr in (i :: a, b)
  end.
Definition is_start (c : nat) (i : item) : bool := match i with IStart e => event_of c e | _ => false end.
Definition is_end (c : nat) (i : item) : bool := match i with IEnd d => Nat.eqb d c | _ => false end.
Definition part1 (c n : nat) (tr : list item) := fst (upto (is_start c) n tr).
Definition part2 (c n : nat) (tr : list item) := fst (upto (is_end c) 0 (snd (upto (is_start c) n tr))).
Definition part3 (c n : nat) (tr : list item) := snd (upto (is_end c) 0 (snd (upto (is_start c) n tr))).

(** ** C87: in every schedule each packet is answered by its handler, in order. *)
Theorem C87_answered_in_order {st0} cfg tr x c :
  mruns cfg (conf_on st0) tr x -> idle c x -> Forall texts (events_of c tr) ->
  answered cfg c false (events_of c tr) (outputs_of c tr).
Proof. intros H Hi Ht. apply (answered_run cfg c (conf_on st0) tr x H Hi Ht). reflexivity. Qed.
Print Assumptions C87_answered_in_order.
(** The handlers whose steps are interleaved are those of the sequential model: one that runs alone does what
    [step] says, and every history is one of the schedules. *)
Theorem C87_alone_is_step cfg w e : wf w -> e <> ERestart ->
  solo (event_conn e) (handler cfg (aget Nat.eqb (event_conn e) (w_conns w)) e) w = step cfg w e.
Proof. apply solo_step. Qed.
Print Assumptions C87_alone_is_step.
Theorem C87_histories_are_schedules cfg es : ~ In ERestart es ->
  exists tr, mruns cfg conf_new tr (Mk_conf (fst (run cfg es world_new)) [] [] [])
    /\ all_outputs tr = snd (run cfg es world_new) /\ all_events tr = es.
Proof. intros H. apply (sequential cfg es world_new); [apply wf_new|exact H]. Qed.
Print Assumptions C87_histories_are_schedules.
(** Two clients connect, subscribe and publish at the same time. *)
Definition ex_moves : list move :=
  starts [ex_first 1 (ex_connect "a" true); ex_first 2 (ex_connect "b" true)] ++ rounds 40 [1; 2]%nat ++
  starts [ex_sub 1 "x/+"; ex_sub 2 "x/y"] ++ rounds 40 [1; 2]%nat ++
  starts [ex_pub 1 AtLeastOnce (Some 5) "x/y" "v"; ex_pub 2 ExactlyOnce (Some 6) "x/y" "w"] ++ rounds 40 [2; 1]%nat ++
  starts [EOut 1 (str "x/+"); EOut 2 (str "x/y")] ++ rounds 40 [1; 2]%nat ++
  starts [EOut 1 (str "x/+"); EPacket 2 (Publish (ex_publish AtLeastOnce (Some 1) false "x/+" "v"))] ++ rounds 40 [1; 2]%nat.
Definition ex_trace := snd (mexec ex_open ex_moves conf_new).
Example C87_ex : mruns ex_open conf_new ex_trace (fst (mexec ex_open ex_moves conf_new))
  /\ idle 1 (fst (mexec ex_open ex_moves conf_new)) /\ idle 2 (fst (mexec ex_open ex_moves conf_new))
  /\ length (events_of 1 ex_trace) = 5%nat /\ length (outputs_of 1 ex_trace) = 5%nat
  /\ (exists p q, outputs_of 2 ex_trace = p ++ [Sent 2 (PubRec (Mk_ack_packet 6 Success None)); q; Closed 2])
  /\ exists tr1 tr2 t t' ps ps' tr3, ex_trace = tr1 ++ IStep 1 (OWalk t ps) :: tr2 ++ IStep 2 (OWalk t' ps') :: tr3 /\ ~ In (IEnd 1) tr2
     /\ In OLeave (steps_of 1 tr3).
Proof.
  split; [apply mexec_runs|]. split; [vm_compute; reflexivity|]. split; [vm_compute; reflexivity|].
  split; [vm_compute; reflexivity|]. split; [vm_compute; reflexivity|]. split.
  - exists (firstn 2 (outputs_of 2 ex_trace)). eexists. vm_compute. reflexivity.
  - set (n := length (fst (fold_left (fun (a : list item * bool) i => let '(l, b) := a in
        if b then a else match i with IStep 1%nat (OWalk _ _) => (l, true) | _ => (i :: l, false) end) ex_trace ([], false)))).
    vm_compute in n.
    set (m := length (fst (fold_left (fun (a : list item * bool) i => let '(l, b) := a in
        if b then a else match i with IStep 2%nat (OWalk _ _) => (l, true) | _ => (i :: l, false) end) (skipn (S n) ex_trace) ([], false)))).
    vm_compute in m.
    exists (firstn n ex_trace), (firstn m (skipn (S n) ex_trace)). eexists. eexists. eexists. eexists. exists (skipn (S m) (skipn (S n) ex_trace)).
    split; [vm_compute; reflexivity|]. split; [vm_compute; intuition discriminate|]. vm_compute. tauto.
Qed.

(** ** C88: a published message goes once to every granted subscription, in every schedule. *)
Lemma routed_by_in c f tr m : In m (routed_by c f tr) -> In m (routed f tr).
Proof.
  unfold routed_by, routed. rewrite !in_flat_map. intros (o & Ho & Hm). exists (IStep c o). split; [|exact Hm]. apply steps_in. exact Ho.
Qed.
(** Whatever the others do meanwhile, while a PUBLISH is handled its message is put exactly once into the queue of every
    filter that matches the topic and was granted before, and into no queue of a filter that does not match; and this has
    been done when the acknowledgement is sent. *)
Theorem C88_once_to_every_match {st0} cfg c p pre mid post tr x f :
  mruns cfg (conf_on st0) tr x -> (forall d, Forall texts (events_of d tr)) ->
  handled c (EPacket c (Publish p)) pre mid post tr -> opened c pre -> valid_publish p -> topic_filter f ->
  exists m, carries p m
    /\ (matches f (pb_topic p) -> granted f pre -> routed_by c f mid = [m])
    /\ (~ matches f (pb_topic p) -> routed_by c f mid = [])
    /\ (routed_by c f mid = [] \/ routed_by c f mid = [m])
    /\ forall a o b, mid = a ++ IStep c (OOut o) :: b -> routed_by c f b = [].
Proof.
  intros Hr Ht Hh Ho Hv Hf. destruct (published_once _ _ _ _ _ _ _ _ f Hr (Ht c) Hh Ho Hv) as (y & mid1 & mid2 & Hm & Hy & Hb & Ha).
  exists (message_of p). split; [repeat split|]. rewrite Hb. split; [|split; [|split; [|exact Ha]]].
  - intros M G. destruct (matches_dec f (pb_topic p)) as [_|N]; [|contradiction].
    assert (Hn : node_at (levels f) (tree y) <> None).
    { destruct Hh as (Htr & _). apply mruns_app in Hy. destruct Hy as (z & Hz & Hy). eapply node_runs; [exact Hy|].
      destruct (granted_sub cfg f pre z Hz) as (d & n & Hi); [|exact Hf|exact G|].
      - intros d. eapply event_texts. rewrite <- Htr. apply Ht.
      - apply in_split in Hi. destruct Hi as (u & v & ->). eapply sub_node. exact Hz. }
    destruct (node_at (levels f) (tree y)); [reflexivity|congruence].
  - intros M. destruct (matches_dec f (pb_topic p)); [contradiction|reflexivity].
  - destruct (matches_dec f (pb_topic p)); auto. destruct (is_some _); auto.
Qed.
Print Assumptions C88_once_to_every_match.
(** The messages that one client publishes enter every queue in the order in which the client sent them. *)
Theorem C88_publisher_order {st0} cfg c p1 p2 pre mid1 between mid2 post tr x f :
  mruns cfg (conf_on st0) tr x -> (forall d, Forall texts (events_of d tr)) ->
  handled c (EPacket c (Publish p1)) pre mid1 (between ++ IStart (EPacket c (Publish p2)) :: mid2 ++ IEnd c :: post) tr -> ~ In (IEnd c) mid2 ->
  opened c (pre ++ IStart (EPacket c (Publish p1)) :: mid1 ++ IEnd c :: between) -> opened c pre ->
  valid_publish p1 -> valid_publish p2 -> topic_filter f ->
  matches f (pb_topic p1) -> matches f (pb_topic p2) -> granted f pre ->
  exists m1 m2 a b d, carries p1 m1 /\ carries p2 m2 /\ routed f tr = a ++ m1 :: b ++ m2 :: d.
Proof.
  intros Hr Ht Hh He2 Ho2 Ho1 Hv1 Hv2 Hf M1 M2 G.
  destruct (C88_once_to_every_match _ _ _ _ _ _ _ _ _ Hr Ht Hh Ho1 Hv1 Hf) as (m1 & C1 & R1 & _). specialize (R1 M1 G).
  assert (Hh2 : handled c (EPacket c (Publish p2)) (pre ++ IStart (EPacket c (Publish p1)) :: mid1 ++ IEnd c :: between) mid2 post tr).
  { destruct Hh as (-> & E & _). split; [|split; [apply Nat.eqb_refl|exact He2]]. rewrite <- app_assoc. simpl. rewrite <- app_assoc. reflexivity. }
  destruct (C88_once_to_every_match _ _ _ _ _ _ _ _ _ Hr Ht Hh2 Ho2 Hv2 Hf) as (m2 & C2 & R2 & _).
  assert (G2 : granted f (pre ++ IStart (EPacket c (Publish p1)) :: mid1 ++ IEnd c :: between)).
  { destruct G as (d & q & u & v & w & a & -> & H1 & H2 & H3). exists d, q, u, v, (w ++ IStart (EPacket c (Publish p1)) :: mid1 ++ IEnd c :: between), a.
    repeat split; auto. rewrite <- app_assoc. simpl. rewrite <- app_assoc. reflexivity. }
  specialize (R2 M2 G2).
  assert (I1 : In m1 (routed f mid1)) by (apply (routed_by_in c); rewrite R1; left; reflexivity).
  assert (I2 : In m2 (routed f mid2)) by (apply (routed_by_in c); rewrite R2; left; reflexivity).
  apply in_split in I1. destruct I1 as (a1 & b1 & E1). apply in_split in I2. destruct I2 as (a2 & b2 & E2).
  exists m1, m2, (routed f pre ++ a1), (b1 ++ routed f between ++ a2), (b2 ++ routed f post).
  split; [exact C1|]. split; [exact C2|]. destruct Hh as (-> & _ & _).
  rewrite routed_app. change (routed f (IStart ?e :: ?l)) with (routed f l). rewrite routed_app. change (routed f (IEnd ?e :: ?l)) with (routed f l).
  rewrite routed_app. change (routed f (IStart ?e :: ?l)) with (routed f l). rewrite routed_app. change (routed f (IEnd ?e :: ?l)) with (routed f l).
  rewrite E1, E2. rewrite <- !app_assoc. cbn [app]. rewrite ?app_comm_cons, <- ?app_assoc. cbn [app]. reflexivity.
Qed.
Print Assumptions C88_publisher_order.

Definition textsb (e : event) : bool :=
  match e with
  | EPacket _ (Publish p) => utf8_valid (pb_topic p)
  | EPacket _ (Subscribe p) => forallb (fun fo => utf8_valid (fst fo)) (sb_payload p)
  | _ => true
  end.
Lemma texts_all tr : forallb textsb (all_events tr) = true -> forall d, Forall texts (events_of d tr).
Proof.
  intros H d. apply Forall_forall. intros e He. rewrite forallb_forall in H. specialize (H e).
  assert (Hi : In e (all_events tr)).
  { unfold events_of in He. unfold all_events. apply in_flat_map in He. destruct He as (i & Hi & He). apply in_flat_map. exists i. split; [exact Hi|].
    destruct i; [|exact He|exact He]. destruct (event_of d e0); [exact He|destruct He]. }
  specialize (H Hi). destruct e; try exact I. destruct k; try exact I; simpl in *; [apply utf8_valid_iff, H|].
  apply Forall_forall. intros fo Hf. apply utf8_valid_iff. rewrite forallb_forall in H. apply (H _ Hf).
Qed.
Lemma handled_parts c n e tr : tr = part1 c n tr ++ IStart e :: part2 c n tr ++ IEnd c :: part3 c n tr -> event_of c e = true ->
  existsb (is_end c) (part2 c n tr) = false -> handled c e (part1 c n tr) (part2 c n tr) (part3 c n tr) tr.
Proof.
  intros Ht He Hn. repeat split; auto. intros Hi. assert (existsb (is_end c) (part2 c n tr) = true); [|congruence].
  apply existsb_exists. exists (IEnd c). split; [exact Hi|apply Nat.eqb_refl].
Qed.
(** Both clients of the example publish to x/y at the same time; client 1 subscribed to x/+, client 2 to x/y. *)
Lemma ex_granted c n f q : forall tr, 
  let pre := part1 c n tr in let mid := part2 c n tr in let post := part3 c n tr in
  tr = pre ++ IStart (EPacket c (Subscribe q)) :: mid ++ IEnd c :: post -> opened c pre -> In f (map fst (sb_payload q)) ->
  existsb (fun i => match i with IStep d (OOut (Sent d' (SubAck _))) => Nat.eqb d c && Nat.eqb d' c | _ => false end) mid = true ->
  existsb (is_end c) mid = false -> granted f tr.
Proof.
  intros tr pre mid post Htr Ho Hf He Hn. apply existsb_exists in He. destruct He as (i & Hi & E).
  destruct i as [|d o|]; try discriminate. destruct o as [o| | | | | | | | | | | | |]; try discriminate. destruct o as [d' k| |]; try discriminate. destruct k as [| | | | | | | |p0| | | | | |]; try discriminate.
  apply andb_prop in E. destruct E as [E1 E2]. apply Nat.eqb_eq in E1, E2. subst d d'. apply in_split in Hi. destruct Hi as (u & v & Hm).
  exists c, q, pre, u, (v ++ IEnd c :: post), p0. split; [rewrite Htr, Hm, <- app_assoc; reflexivity|]. split; [exact Ho|]. split; [|exact Hf].
  intros Hu. assert (existsb (is_end c) mid = true); [|congruence]. apply existsb_exists. exists (IEnd c). split; [rewrite Hm; apply in_or_app; auto|].
  apply Nat.eqb_refl.
Qed.
Definition ex_p1 := ex_publish AtLeastOnce (Some 5) false "x/y" "v".
Definition ex_p2 := ex_publish ExactlyOnce (Some 6) false "x/y" "w".
Example C88_ex :
  handled 1 (EPacket 1 (Publish ex_p1)) (part1 1 2 ex_trace) (part2 1 2 ex_trace) (part3 1 2 ex_trace) ex_trace
  /\ (forall d, Forall texts (events_of d ex_trace))
  /\ opened 1 (part1 1 2 ex_trace) /\ valid_publish ex_p1 /\ topic_filter (str "x/y") /\ matches (str "x/y") (pb_topic ex_p1)
  /\ granted (str "x/y") (part1 1 2 ex_trace)
  /\ routed_by 1 (str "x/y") (part2 1 2 ex_trace) = [message_of ex_p1]
  /\ routed (str "x/y") ex_trace = [message_of ex_p1; message_of ex_p2].
Proof.
  split; [apply handled_parts; vm_compute; reflexivity|]. split; [apply texts_all; vm_compute; reflexivity|].
  split; [vm_compute; reflexivity|]. split; [split; [name_tac|right; split; discriminate]|]. split; [filter_tac|]. split; [match_tac|].
  split; [eapply (ex_granted 2 1 _ _ (part1 1 2 ex_trace)); [vm_compute; reflexivity|vm_compute; reflexivity|left; reflexivity|vm_compute; reflexivity|vm_compute; reflexivity]|].
  split; vm_compute; reflexivity.
Qed.
(** The hypotheses of C88_publisher_order: client 1 publishes twice. *)
Definition ex_twice : list move :=
  starts [ex_first 1 (ex_connect "a" true); ex_first 2 (ex_connect "b" true)] ++ rounds 40 [1; 2]%nat ++
  starts [ex_sub 2 "x/#"] ++ rounds 40 [2]%nat ++
  starts [EPacket 1 (Publish ex_p1); EPacket 2 (Publish ex_p2)] ++ rounds 8 [1; 2]%nat ++ rounds 20 [1]%nat ++
  starts [EPacket 1 (Publish (ex_publish AtMostOnce None false "x/z" "u"))] ++ rounds 40 [1; 2]%nat.
Definition ex_twice_trace := snd (mexec ex_open ex_twice conf_new).
Example C88_ex2 : exists between,
  handled 1 (EPacket 1 (Publish ex_p1)) (part1 1 1 ex_twice_trace) (part2 1 1 ex_twice_trace)
    (between ++ IStart (EPacket 1 (Publish (ex_publish AtMostOnce None false "x/z" "u"))) :: part2 1 2 ex_twice_trace ++ IEnd 1 :: part3 1 2 ex_twice_trace) ex_twice_trace
  /\ ~ In (IEnd 1) (part2 1 2 ex_twice_trace)
  /\ opened 1 (part1 1 1 ex_twice_trace) /\ opened 1 (part1 1 1 ex_twice_trace ++ IStart (EPacket 1 (Publish ex_p1)) :: part2 1 1 ex_twice_trace ++ IEnd 1 :: between)
  /\ granted (str "x/#") (part1 1 1 ex_twice_trace)
  /\ length (routed (str "x/#") ex_twice_trace) = 3%nat.
Proof.
  exists (fst (upto (is_start 1) 0 (part3 1 1 ex_twice_trace))).
  assert (H : handled 1 (EPacket 1 (Publish ex_p1)) (part1 1 1 ex_twice_trace) (part2 1 1 ex_twice_trace) (part3 1 1 ex_twice_trace) ex_twice_trace)
    by (apply handled_parts; vm_compute; reflexivity).
  assert (H2 : handled 1 (EPacket 1 (Publish (ex_publish AtMostOnce None false "x/z" "u"))) (part1 1 2 ex_twice_trace) (part2 1 2 ex_twice_trace) (part3 1 2 ex_twice_trace) ex_twice_trace)
    by (apply handled_parts; vm_compute; reflexivity).
  split; [|split; [apply H2|]].
  - replace (_ ++ _) with (part3 1 1 ex_twice_trace); [exact H|vm_compute; reflexivity].
  - split; [vm_compute; reflexivity|]. split; [vm_compute; reflexivity|].
    split; [eapply (ex_granted 2 1 _ _ (part1 1 1 ex_twice_trace)); [vm_compute; reflexivity|vm_compute; reflexivity|left; reflexivity|vm_compute; reflexivity|vm_compute; reflexivity]|].
    vm_compute. reflexivity.
Qed.

(** ** C89: what is published after the SUBACK reaches the subscriber, in every schedule. *)
Lemma subseq_firstn {T} (a b : list T) n : subseq a b -> subseq (firstn n a) b.
Proof.
  intros H. revert n. induction H as [|x a b H IH|x a b H IH]; intros n.
  - rewrite firstn_nil. constructor.
  - destruct n; simpl; [apply subseq_nil|]. constructor. apply IH.
  - constructor. apply IH.
Qed.
Lemma forall2_firstn {A B} (P : A -> B -> Prop) a b c : Forall2 P (a ++ b) c -> Forall2 P a (firstn (length a) c).
Proof. revert c. induction a as [|x a IH]; intros c H; simpl; [constructor|]. inversion H; subst. simpl. constructor; auto. Qed.
Lemma delivered_run {st0} cfg c i f ret R0 L0 P post x y :
  mruns cfg (conf_on st0) P y -> mruns cfg y post x -> Forall texts (events_of c (P ++ post)) ->
  dinv c i f ret R0 L0 post [] y -> Forall (quiet_item c i f) post ->
  let all := ret ++ R0 ++ routed f post in
  let sent := deliveries c f (outputs_of c post) in
  Forall (fun m => mg_qos m <> QInvalid) all ->
   (exists l, subseq l all /\ Forall2 (sent_as f) sent l) /\
   (keeping_up c f ret R0 post ->
      Forall2 (sent_as f) sent (firstn (length sent) all) /\
      forall p1 m p2, post = p1 ++ IStart (EOut c f) :: m ++ IEnd c :: p2 -> ~ In (IEnd c) m -> opened c (P ++ p1) ->
        (length (deliveries c f (outputs_of c p1)) < length (ret ++ R0 ++ routed f p1))%nat ->
        exists p, deliveries c f (outputs_of c m) = [p]).
Proof.
  intros HP Hy Ht Hd Hq all sent Hg'.
  assert (Hdx : dinv c i f ret R0 L0 post ([] ++ post) x).
  { eapply dinv_runs; [exact Hy|exact Hg'|exact Hq|exists []; rewrite app_nil_r; reflexivity|exact Hd]. }
  destruct Hdx as (owed & (s & st & dn & live & D1 & D2 & D3 & D4 & D5 & D6 & D7 & D8 & D9 & D10 & D11) & _). cbn [app] in *.
  pose proof (forall2_firstn _ _ _ _ D6) as D6'.
  split.
  - eexists. split; [|exact D6']. apply subseq_firstn. unfold all. rewrite D5. apply subseq_app.
    + rewrite <- (app_nil_r dn) at 1. apply subseq_app; [apply subseq_refl|apply subseq_nil].
    + eapply subseq_prefix_weaken. exact D9.
  - intros W. split.
    + specialize (D10 W). replace (firstn (length sent) all) with (firstn (length sent) (dn ++ live)); [exact D6'|].
      assert (Hpre : exists rest, all = (dn ++ live) ++ rest).
      { unfold all. destruct (st_retained st) as [|m0 ms] eqn:Er.
        - rewrite app_nil_r in D5. rewrite <- D5. rewrite D10. eexists. rewrite <- app_assoc. rewrite firstn_skipn. reflexivity.
        - rewrite D7 by discriminate. rewrite D5, app_nil_r. eexists. rewrite <- app_assoc. reflexivity. }
      destruct Hpre as [rest ->]. rewrite (firstn_app _ (dn ++ live) rest). apply forall2_len in D6. rewrite app_length in D6. fold sent in D6.
      replace (length sent - length (dn ++ live))%nat with O by lia. simpl. rewrite app_nil_r. reflexivity.
    + intros p1 m p2 Hp He Hop Hlt. rewrite Hp in Hy. apply mruns_app in Hy. destruct Hy as (y1 & Hy1 & Hy2).
      assert (Hd1 : dinv c i f ret R0 L0 post ([] ++ p1) y1).
      { eapply dinv_runs; [exact Hy1|exact Hg'| |exists (IStart (EOut c f) :: m ++ IEnd c :: p2); exact Hp|exact Hd].
        rewrite Hp in Hq. apply Forall_app in Hq. apply Hq. }
      cbn [app] in Hd1.
      eapply poll_delivers; eauto.
      assert (Hz : mruns cfg (conf_on st0) (P ++ p1) y1) by (apply mruns_app; exists y; auto).
      assert (Hidle : idle c y1).
      { inversion Hy2 as [|? mv ? ? ? ? Hs ?]; subst. apply mstep_inv in Hs.
        destruct Hs as [(e & -> & E & _ & Hn & _)|[(d & -> & E & _)|(d & k0 & o & k1 & -> & E & _)]]; try discriminate. injection E as <-. exact Hn. }
      apply (open_conns cfg c _ y1 Hz) in Hop; [|rewrite Hp in Ht; clear -Ht|exact Hidle].
      * destruct Hop as [i' Hi']. destruct Hd1 as (? & (? & ? & ? & ? & ? & ? & ? & ? & ? & ? & ? & ? & ? & ? & Hcc) & _). rewrite Hi' in *. destruct Hcc as [Hcc|Hcc]; [discriminate|exact Hcc].
      * eapply (event_texts c _ (IStart (EOut c f))). rewrite <- app_assoc. cbn [app]. exact Ht.
Qed.
(** A connection whose client identifier nobody else uses subscribes to [f] and keeps the subscription. From the end of the
    handler on, the PUBLISH packets it is sent for [f] are, in order and without repetition, retained messages that the store
    held for [f] and messages that were routed to [f] since the subscription was made; if never more than 16 of the latter wait,
    none is skipped; and if one waits, a poll of the subscription sends exactly one.
    Messages with a QoS other than 0, 1 and 2 are excluded: no packet with one is parsed (C10, Packets.publish_dec) and sending one ends the task. *)
Theorem C89_delivered_from_suback_on {st0} cfg c q f pre mid post tr x :
  mruns cfg (conf_on st0) tr x -> Forall texts (events_of c tr) ->
  handled c (EPacket c (Subscribe q)) pre mid post tr -> opened c pre -> In f (map fst (sb_payload q)) -> topic_filter f ->
  lone c tr -> keeps_subscription c f post ->
  exists ret n mid1 mid2, mid = mid1 ++ IStep c (OSub f n) :: mid2 /\ In (IStep c (OStore (GetRetained f) (RMessages ret))) mid2 /\
  let all := ret ++ routed f (mid2 ++ post) in
  let sent := deliveries c f (outputs_of c post) in
  (Forall (fun m => mg_qos m <> QInvalid) all ->
   (exists l, subseq l all /\ Forall2 (sent_as f) sent l) /\
   (keeping_up c f ret (routed f mid2) post ->
      Forall2 (sent_as f) sent (firstn (length sent) all) /\
      forall p1 m p2, post = p1 ++ IStart (EOut c f) :: m ++ IEnd c :: p2 -> ~ In (IEnd c) m ->
        opened c (pre ++ IStart (EPacket c (Subscribe q)) :: mid ++ IEnd c :: p1) ->
        (length (deliveries c f (outputs_of c p1)) < length (ret ++ routed f (mid2 ++ p1)))%nat ->
        exists p, deliveries c f (outputs_of c m) = [p])).
Proof.
  intros Hr Ht Hh Ho Hin Hf Hl Hk.
  destruct (subscribed_run _ _ _ _ _ _ _ _ _ Hr Ht Hh Ho Hin Hf Hl Hk) as (i & ret & n & mid1 & mid2 & L0 & y & Hmid & Hret & Hy0 & Hy & Hd & Hq).
  exists ret, n, mid1, mid2. split; [exact Hmid|]. split; [exact Hret|]. intros all sent Hg.
  pose proof Hh as (Htr & _). set (P := pre ++ IStart (EPacket c (Subscribe q)) :: mid ++ [IEnd c]) in *.
  assert (HP : forall l, P ++ l = pre ++ IStart (EPacket c (Subscribe q)) :: mid ++ IEnd c :: l) by (intros l; unfold P; rewrite <- app_assoc; simpl; rewrite <- app_assoc; reflexivity).
  rewrite Htr, <- HP in Ht. unfold all in *. rewrite routed_app in *.
  destruct (delivered_run cfg c i f ret (routed f mid2) L0 P post x y Hy0 Hy Ht Hd Hq Hg) as [D1 D2].
  split; [exact D1|]. intros W. destruct (D2 W) as [D3 D4]. split; [exact D3|]. intros p1 m p2 Hp He Hop Hlt. rewrite <- HP in Hop. rewrite routed_app in Hlt. eauto.
Qed.
Print Assumptions C89_delivered_from_suback_on.

Lemma in_events e tr : In (IStart e) tr -> In e (all_events tr).
Proof. intros H. unfold all_events. apply in_flat_map. exists (IStart e). split; [exact H|left; reflexivity]. Qed.
Lemma few_keep_up c f ret before tr : (length (before ++ routed f tr) <= 16)%nat -> keeping_up c f ret before tr.
Proof. intros H a b ->. rewrite routed_app, !app_length in *. lia. Qed.
(** Client 1 subscribes to x/+ while client 2 subscribes to x/y; both publish at the same time, client 1 polls twice. *)
Example C89_ex :
  let post := part3 1 1 ex_trace in
  handled 1 (ex_sub 1 "x/+") (part1 1 1 ex_trace) (part2 1 1 ex_trace) post ex_trace /\ opened 1 (part1 1 1 ex_trace)
  /\ topic_filter (str "x/+") /\ lone 1 ex_trace /\ keeps_subscription 1 (str "x/+") post
  /\ (forall ret before, (length before <= 10)%nat -> keeping_up 1 (str "x/+") ret before post)
  /\ length (routed (str "x/+") post) = 2%nat /\ length (deliveries 1 (str "x/+") (outputs_of 1 post)) = 2%nat.
Proof.
  assert (He : all_events ex_trace = [ex_first 1 (ex_connect "a" true); ex_first 2 (ex_connect "b" true); ex_sub 1 "x/+"; ex_sub 2 "x/y";
    ex_pub 1 AtLeastOnce (Some 5) "x/y" "v"; ex_pub 2 ExactlyOnce (Some 6) "x/y" "w"; EOut 1 (str "x/+"); EOut 2 (str "x/y");
    EOut 1 (str "x/+"); EPacket 2 (Publish (ex_publish AtLeastOnce (Some 1) false "x/+" "v"))]) by (vm_compute; reflexivity).
  assert (Hp : all_events (part3 1 1 ex_trace) = [ex_pub 1 AtLeastOnce (Some 5) "x/y" "v"; ex_pub 2 ExactlyOnce (Some 6) "x/y" "w"; EOut 1 (str "x/+"); EOut 2 (str "x/y");
    EOut 1 (str "x/+"); EPacket 2 (Publish (ex_publish AtLeastOnce (Some 1) false "x/+" "v"))]) by (vm_compute; reflexivity).
  assert (Hr : length (routed (str "x/+") (part3 1 1 ex_trace)) = 2%nat) by (vm_compute; reflexivity).
  split; [apply handled_parts; vm_compute; reflexivity|]. split; [vm_compute; reflexivity|]. split; [filter_tac|].
  split; [|split; [|split; [|split; [exact Hr|vm_compute; reflexivity]]]].
  - intros d id (k1 & u1 & a1 & H1 & E1) (k2 & u2 & a2 & H2 & E2). apply in_events in H1, H2. rewrite He in H1, H2.
    assert (K : id = str "a").
    { simpl in H1. repeat (destruct H1 as [H1|H1]; [try discriminate H1|]); try contradiction. injection H1 as <- <- <-. rewrite <- E1. reflexivity. }
    rewrite K in E2. simpl in H2. repeat (destruct H2 as [H2|H2]; [try discriminate H2|]); try contradiction; injection H2 as <- <- <- <-; [reflexivity|vm_compute in E2; discriminate E2].
  - intros e Hi. apply in_events in Hi. rewrite Hp in Hi. simpl in Hi.
    repeat (destruct Hi as [<-|Hi]; [repeat split; intros; discriminate|]). contradiction.
  - intros ret before Hb. apply few_keep_up. rewrite app_length, Hr. lia.
Qed.

(** ** C90: a session is read and changed only by connections that presented its client identifier. *)
Theorem C90_session_isolation {st0} cfg tr x c i id :
  mruns cfg (conf_on st0) tr x -> created i id tr -> uses c i tr -> came c id tr.
Proof. intros Hr Hc Hu. eapply session_owner; eauto. Qed.
Print Assumptions C90_session_isolation.
(** Sessions that are used were created for somebody. *)
Theorem C90_used_was_created {st0} cfg tr x c i :
  mruns cfg (conf_on st0) tr x -> uses c i tr -> exists id, created i id tr /\ came c id tr.
Proof. intros Hr Hu. pose proof (own_runs _ _ _ _ Hr [] own_new) as Hi. exact (oi_uses _ _ Hi _ _ Hu). Qed.
Print Assumptions C90_used_was_created.
(** Two connections that use one session presented the same identifier. *)
Theorem C90_shared_session {st0} cfg tr x c d i :
  mruns cfg (conf_on st0) tr x -> uses c i tr -> uses d i tr -> exists id, came c id tr /\ came d id tr.
Proof.
  intros Hr Hc Hd. destruct (C90_used_was_created _ _ _ _ _ Hr Hc) as (id & H1 & H2). exists id. split; [exact H2|].
  eapply C90_session_isolation; eauto.
Qed.
Print Assumptions C90_shared_session.
(** Client "a" comes back on connection 3 while connection 1 is busy; connection 2 is client "b". *)
Definition ex_shared : list move :=
  starts [ex_first 1 (ex_connect "a" false); ex_first 2 (ex_connect "b" false)] ++ rounds 40 [1; 2]%nat ++
  starts [ex_first 3 (ex_connect "a" false); ex_sub 1 "x"; ex_sub 2 "y"] ++ rounds 40 [1; 3; 2]%nat.
Example C90_ex : let tr := snd (mexec ex_open ex_shared conf_new) in
  mruns ex_open conf_new tr (fst (mexec ex_open ex_shared conf_new))
  /\ created 0 (str "a") tr /\ created 1 (str "b") tr /\ uses 1 0 tr /\ uses 3 0 tr /\ uses 2 1 tr.
Proof.
  split; [apply mexec_runs|].
  assert (U : forall c i t, existsb (fun j => match j with IStep d (OSess i' _ _) => Nat.eqb d c && Nat.eqb i' i | _ => false end) t = true -> uses c i t).
  { intros c i t H. apply existsb_exists in H. destruct H as (j & Hj & E). destruct j as [|d o|]; try discriminate. destruct o; try discriminate.
    apply andb_prop in E. destruct E as [E1 E2]. apply Nat.eqb_eq in E1, E2. subst. eexists _, _. exact Hj. }
  assert (C : forall i id t, existsb (fun j => match j with IStep d (ONew id' i' _) => bytes_eqb id' id && Nat.eqb i' i | _ => false end) t = true -> created i id t).
  { intros i id t H. apply existsb_exists in H. destruct H as (j & Hj & E). destruct j as [|d o|]; try discriminate. destruct o; try discriminate.
    apply andb_prop in E. destruct E as [E1 E2]. apply Nat.eqb_eq in E2. apply beqb_spec in E1. subst. eexists _, _. exact Hj. }
  repeat split; first [apply C|apply U]; vm_compute; reflexivity.
Qed.


(** ** C91: handlers never wait for each other for ever. *)
(** Whatever the schedule was, as long as a handler is at work some handler can make a step... *)
Theorem C91_somebody_moves {st0} cfg tr x c : mruns cfg (conf_on st0) tr x -> ~ idle c x -> exists d x1 i, mstep cfg x (MGo d) = Some (x1, i).
Proof.
  intros H Hc. destruct (aget Nat.eqb c (cn_tasks x)) as [k|] eqn:E; [|contradiction].
  eapply progress; [eapply inv_runs; eauto using inv_new|exact E].
Qed.
Print Assumptions C91_somebody_moves.
(** ... and the handlers make only finitely many steps unless something new happens: however their steps are
    interleaved, they all come to their end, ... *)
Theorem C91_no_endless_schedule {st0} cfg tr (xs : nat -> conf) (cs : nat -> nat) (is : nat -> item) :
  mruns cfg (conf_on st0) tr (xs O) -> ~ forall n, mstep cfg (xs n) (MGo (cs n)) = Some (xs (S n), is n).
Proof.
  intros H Hs. eapply no_endless; [|reflexivity|exact Hs].
  eapply distinct_runs; [exact H|]. unfold distinct. constructor.
Qed.
Print Assumptions C91_no_endless_schedule.
Theorem C91_all_finish {st0} cfg tr x : mruns cfg (conf_on st0) tr x ->
  exists tr' x', mruns cfg x tr' x' /\ (forall c, events_of c tr' = []) /\ forall c, idle c x'.
Proof.
  intros H. destruct (finishes cfg x) as (tr' & x' & Hr & Ho & Ht).
  - eapply inv_runs; eauto using inv_new.
  - eapply distinct_runs; [exact H|]. unfold distinct. constructor.
  - assert (He : forall c, events_of c tr' = []).
    { intros c. clear -Ho. induction Ho as [|i tr Hi Ho IH]; [reflexivity|]. destruct i; [contradiction|exact IH|exact IH]. }
    exists tr', x'. repeat split; auto. intros c. unfold idle. rewrite Ht. reflexivity.
Qed.
Print Assumptions C91_all_finish.
(** Both clients are in the middle of subscribing. *)
Definition ex_busy := fst (mexec ex_open (firstn 86 ex_moves) conf_new).
Example C91_ex : exists tr, mruns ex_open conf_new tr ex_busy /\ ~ idle 1 ex_busy /\ ~ idle 2 ex_busy.
Proof. exists (snd (mexec ex_open (firstn 86 ex_moves) conf_new)). split; [apply mexec_runs|]. split; vm_compute; discriminate. Qed.
