(** Property C109: what is delivered was sent and asked for, over all lives of a broker that is stopped at any point and
    started again on the store it left.
    Every theorem is followed by a concrete case meeting its hypotheses. *)
From Coq Require Import String.
From Verif Require Import Base Utf8 Codec SpecCodec Tac CodecFacts Str Maps Topic SpecTopic TopicFacts Property PacketProps Packets
  TopicTree TreeFacts Storage StorageFacts Broker SpecBroker BrokerFacts Auth Session Server SpecServer SessionFacts ServerFacts HandlerFacts
  Conc SpecConc ConcFacts ConcLocks ConcRoute ConcOwn ConcDeliver ConcProv SpecLives ConcLives Examples Properties_Routing Properties_Delivery
  Properties_Conc Properties_Provenance.

(** Whatever the lives of the broker before this one, and wherever each was cut off: a PUBLISH that is written to a connection
    is written by its own handler and carries payload, QoS and packet identifier of a message that an accepted client sent
    before, in this life or an earlier one, to a topic that matches the one named in the PUBLISH. *)
Theorem C109_delivered_was_sent cfg trs st pre c d q post x :
  lives cfg trs st -> mruns cfg (conf_on st) (pre ++ IStep c (OOut (Sent d (Publish q))) :: post) x -> (forall e, Forall texts (events_of e pre)) ->
  d = c /\ exists m, sent_in cfg (trs ++ [pre]) m /\ pb_payload q = mg_payload m /\ pb_qos q = mg_qos m /\ pb_packet_id q = mg_packet_id m
    /\ matches (pb_topic q) (mg_topic m) /\ (~ In 35 (pb_topic q) -> ~ In 43 (pb_topic q) -> pb_topic q = mg_topic m).
Proof.
  intros Hl Hr Ht. destruct (@delivered_at st cfg (past_of cfg trs) _ _ _ _ _ _ Hr (lives_good _ _ _ Hl) Ht) as (-> & _ & m & H1 & H2 & H3 & H4 & H5).
  split; [reflexivity|]. exists m. apply msg_past in H1. repeat split; auto. intros N1 N2. apply exact_match; auto.
Qed.
Print Assumptions C109_delivered_was_sent.
(** The topic named in it is a filter that the client asked for: on this connection or on one joined to it by client
    identifiers, in whatever life. *)
Theorem C109_delivered_was_asked cfg trs st pre c d q post x :
  lives cfg trs st -> mruns cfg (conf_on st) (pre ++ IStep c (OOut (Sent d (Publish q))) :: post) x -> (forall e, Forall texts (events_of e pre)) ->
  exists n e, joined (trs ++ [pre]) (length trs, c) (n, e) /\ asked_in (trs ++ [pre]) n e (pb_topic q).
Proof.
  intros Hl Hr Ht. destruct (@delivered_at st cfg (past_of cfg trs) _ _ _ _ _ _ Hr (lives_good _ _ _ Hl) Ht) as (_ & H & _). apply wants_past in H. exact H.
Qed.
Print Assumptions C109_delivered_was_asked.
(** So a client is sent nothing that was not asked for under its own identifier [id], when the connections that use [id], in
    whatever life, use no other one. Missing: clients without an identifier (C102_asked_itself_refuted). *)
Theorem C109_asked_itself_partial cfg trs st pre c d q post x id :
  lives cfg trs st -> mruns cfg (conf_on st) (pre ++ IStep c (OOut (Sent d (Publish q))) :: post) x -> (forall e, Forall texts (events_of e pre)) ->
  named c id pre -> (forall n e id', bears (trs ++ [pre]) n e id -> bears (trs ++ [pre]) n e id' -> id' = id) ->
  exists n e, bears (trs ++ [pre]) n e id /\ asked_in (trs ++ [pre]) n e (pb_topic q).
Proof.
  intros Hl Hr Ht Hn Ho. destruct (C109_delivered_was_asked _ _ _ _ _ _ _ _ _ Hl Hr Ht) as (n & e & Hj & Ha). exists n, e. split; [|exact Ha]. clear Ha.
  assert (Hc : bears (trs ++ [pre]) (length trs) c id) by (exists pre; split; [apply last_nth|exact Hn]).
  remember (length trs, c) as a eqn:Ea. remember (n, e) as b eqn:Eb. revert n e Eb. induction Hj as [a|a n' c' m d' id' Hj IH H1 H2]; intros n e Eb.
  - assert (n = length trs /\ e = c) as [-> ->] by (split; congruence). exact Hc.
  - injection Eb as <- <-. specialize (IH Ea _ _ eq_refl). assert (id' = id) by (eapply Ho; eauto). subst id'. exact H2.
Qed.
Print Assumptions C109_asked_itself_partial.

(** Client "a" subscribes and the broker is stopped. In the next life "a" comes back without asking for a clean start, while
    "b" publishes; "a" is sent the message, although it subscribed to nothing in this life. *)
Definition ex_life1 : list move := starts [ex_first 1 (ex_connect "a" false)] ++ rounds 60 [1]%nat ++ starts [ex_sub 1 "x/+"] ++ rounds 40 [1]%nat.
Definition ex_left : mem_store := w_store (cn_world (fst (mexec ex_open ex_life1 conf_new))).
Definition ex_trace1 := snd (mexec ex_open ex_life1 conf_new).
Definition ex_life2 : list move :=
  starts [ex_first 7 (ex_connect "a" false); ex_first 8 (ex_connect "b" true)] ++ rounds 60 [7; 8]%nat ++
  starts [ex_pub 8 AtMostOnce None "x/y" "v"] ++ rounds 40 [8]%nat ++ starts [EOut 7 (str "x/+")] ++ rounds 40 [7]%nat.
Definition ex_trace2 := snd (mexec ex_open ex_life2 (conf_on ex_left)).
Lemma not_asked c f tr : existsb (subs c) tr = false -> ~ asked c f tr.
Proof. intros H (p1 & p2 & p & -> & _). apply (subs_none _ _ H p). apply in_or_app. right. left. reflexivity. Qed.
Example C109_ex : lives ex_open [ex_trace1] ex_left
  /\ exists q, ex_trace2 = before 7 ex_trace2 ++ IStep 7 (OOut (Sent 7 (Publish q))) :: rest 7 ex_trace2
  /\ mruns ex_open (conf_on ex_left) ex_trace2 (fst (mexec ex_open ex_life2 (conf_on ex_left)))
  /\ pb_topic q = str "x/+" /\ pb_payload q = Some (str "v") /\ (forall e, Forall texts (events_of e (before 7 ex_trace2)))
  /\ named 7 (str "a") (before 7 ex_trace2) /\ ~ asked 7 (str "x/+") (before 7 ex_trace2).
Proof.
  split.
  - apply (lv_more _ [] mem_new ex_trace1 (fst (mexec ex_open ex_life1 conf_new))); [constructor|exact (mexec_runs ex_open ex_life1 conf_new)|].
    apply texts_all. vm_compute. reflexivity.
  - eexists. split; [vm_compute; reflexivity|]. split; [exact (mexec_runs ex_open ex_life2 (conf_on ex_left))|]. split; [reflexivity|]. split; [reflexivity|].
    split; [apply texts_all; vm_compute; reflexivity|]. split.
    + exists (ex_connect "a" false), (str "uuid"), true. split; [vm_compute; left; reflexivity|]. left. reflexivity.
    + apply not_asked. vm_compute. reflexivity.
Qed.
(** The connections that use the identifier "a" use no other one. *)
Definition single (id : bytes) (l : list (nat * bytes * bytes)) : bool :=
  forallb (fun '(c, p, u) => forallb (fun '(d, p', u') => negb (Nat.eqb c d) || negb (bytes_eqb p id || bytes_eqb p [] && bytes_eqb u id) || (bytes_eqb p' id && negb (bytes_eqb p' []))) l) l.
Lemma single_in id trs : forallb (fun tr => single id (comers tr)) trs = true -> forall n e id', bears trs n e id -> bears trs n e id' -> id' = id.
Proof.
  intros H n e id' (t & Ht & k & u & a & Hk & E) (t' & Ht' & k' & u' & a' & Hk' & E'). assert (t' = t) by congruence. subst t'. clear Ht'.
  rewrite forallb_forall in H. specialize (H t (nth_error_In _ _ Ht)). apply comers_in in Hk, Hk'. unfold single in H. rewrite forallb_forall in H.
  specialize (H _ Hk). cbn beta iota in H. rewrite forallb_forall in H. specialize (H _ Hk'). cbn beta iota in H. rewrite Nat.eqb_refl in H. cbn [negb orb] in H.
  apply orb_prop in H. destruct H as [H|H].
  - apply negb_true_iff, orb_false_iff in H. destruct H as [H1 H2]. exfalso. destruct E as [E|[E1 E2]].
    + rewrite E in H1. rewrite bytes_eqb_refl in H1. discriminate.
    + rewrite E1, E2 in H2. rewrite !bytes_eqb_refl in H2. cbn in H2. discriminate.
  - apply andb_prop in H. destruct H as [H1 H2]. apply bytes_eqb_eq in H1. destruct E' as [E'|[E' _]]; [congruence|]. rewrite E' in H2. cbn in H2. discriminate.
Qed.
Example C109_ex_one_client : forall n e id', bears ([ex_trace1] ++ [before 7 ex_trace2]) n e (str "a") -> bears ([ex_trace1] ++ [before 7 ex_trace2]) n e id' -> id' = str "a".
Proof. apply single_in. vm_compute. reflexivity. Qed.
(** Every history in which one event is handled after the other, with any number of restarts, is a series of lives: the parts
    between the restarts are the events of the lives, and the same packets are written. So what is proved of lives holds of such
    histories too. *)
Theorem C109_histories_are_lives cfg segs es : Forall (fun s => ~ In ERestart s /\ Forall texts s) segs -> ~ In ERestart es ->
  let h := flat_map (fun s => s ++ [ERestart]) segs ++ es in
  exists trs st tr closed, lives cfg trs st /\ map all_events trs = segs
    /\ mruns cfg (conf_on st) tr (Mk_conf (fst (run cfg h world_new)) [] [] []) /\ all_events tr = es
    /\ length closed = length trs /\ (forall l o, In l closed -> In o l -> exists c, o = Closed c)
    /\ snd (run cfg h world_new) = flat_map (fun x => all_outputs (fst x) ++ snd x) (combine trs closed) ++ all_outputs tr.
Proof.
  revert es. induction segs as [|s segs IH] using rev_ind; intros es Hs He h.
  - destruct (sequential cfg es world_new wf_new He) as (tr & H1 & H2 & H3). exists [], mem_new, tr, []. split; [constructor|]. split; [reflexivity|]. split; [exact H1|]. split; [exact H3|].
    split; [reflexivity|]. split; [intros l o []|]. cbn. symmetry. exact H2.
  - apply Forall_app in Hs. destruct Hs as [Hs Hl]. inversion Hl as [|? ? [Hr Ht] _]; subst.
    destruct (IH s Hs Hr) as (trs & st & tr & cl & L1 & L2 & L3 & L4 & L5 & L6 & L7).
    set (h0 := flat_map (fun s => s ++ [ERestart]) segs ++ s) in *. pose (w0 := fst (run cfg h0 world_new)).
    destruct (sequential cfg es (restart w0) (wf_restart w0) He) as (tr1 & H1 & H2 & H3).
    assert (Hh : h = h0 ++ ERestart :: es) by (subst h h0; rewrite flat_map_app; cbn; rewrite app_nil_r, <- !app_assoc; reflexivity).
    assert (Hrun : run cfg h world_new = (fst (run cfg es (restart w0)),
      snd (run cfg h0 world_new) ++ map (fun x => Closed (fst x)) (w_conns w0) ++ snd (run cfg es (restart w0)))).
    { rewrite Hh, run_app. fold w0. destruct (run cfg h0 world_new) as [w1 o1] eqn:E. cbn [fst snd] in *. subst w0. cbn [run step].
      destruct (run cfg es (restart w1)) as [w2 o2]. reflexivity. }
    exists (trs ++ [tr]), (w_store w0), tr1, (cl ++ [map (fun x => Closed (fst x)) (w_conns w0)]).
    split. { apply (lv_more cfg trs st tr _ L1 L3). intros c. apply Forall_forall. intros e Hi. rewrite Forall_forall in Ht. apply Ht. rewrite <- L4.
      unfold events_of in Hi. unfold all_events. apply in_flat_map in Hi. destruct Hi as (i & Hi & He'). apply in_flat_map. exists i. split; [exact Hi|].
      destruct i; try destruct He'. cbn in *. destruct (event_of c e0); [exact He'|destruct He']. }
    split. { rewrite map_app, L2. cbn. rewrite L4. reflexivity. }
    rewrite Hrun. cbn [fst snd]. split; [exact H1|]. split; [exact H3|]. split. { rewrite !app_length, L5. reflexivity. }
    split. { intros l o Hi Ho. apply in_app_iff in Hi. destruct Hi as [Hi|[<-|[]]]; [eauto|]. apply in_map_iff in Ho. destruct Ho as ([c t] & <- & _). exists c. reflexivity. }
    rewrite L7, <- H2.
    assert (Hc : forall A B (a : list A) (b : list B) x y, length b = length a -> combine (a ++ [x]) (b ++ [y]) = combine a b ++ [(x, y)]).
    { clear. intros A B a. induction a as [|a0 a IH]; intros [|b0 b] x y E; try discriminate; [reflexivity|]. cbn. f_equal. apply IH. cbn in E. congruence. }
    rewrite (Hc _ _ _ _ _ _ L5), flat_map_app. cbn [flat_map fst snd]. rewrite app_nil_r, <- !app_assoc. reflexivity.
Qed.
Print Assumptions C109_histories_are_lives.
Example C109_histories_ex :
  let s := [ex_first 1 (ex_connect "a" false); ex_sub 1 "x"; ex_pub 1 AtLeastOnce (Some 5) "x" "v"] in
  let es := [ex_first 2 (ex_connect "a" false)] in
  Forall (fun s => ~ In ERestart s /\ Forall texts s) [s] /\ ~ In ERestart es
  /\ snd (run ex_open (flat_map (fun s => s ++ [ERestart]) [s] ++ es) world_new) <> snd (run ex_open (s ++ es) world_new).
Proof.
  assert (Hu : forall x, utf8_valid x = true -> utf8 x) by (intros x; apply utf8_valid_iff).
  split; [constructor; [split; [intros [H|[H|[H|[]]]]; discriminate|]|constructor]|].
  { repeat constructor; apply Hu; vm_compute; reflexivity. }
  split; [intros [H|[]]; discriminate|]. vm_compute. discriminate.
Qed.
