(** Properties C19-C27: topics, routing, retained messages and delivery order.
    Every theorem is followed by a concrete case meeting its hypotheses. *)
From Coq Require Import String.
From Verif Require Import Base Utf8 Codec SpecCodec CodecFacts Str Maps Topic SpecTopic TopicFacts TopicTree
  TreeFacts Storage SpecStorage StorageFacts Broker SpecBroker BrokerFacts.

Lemma topic_name_by t : utf8_valid t = true -> validate_publish_topic t = None -> topic_name t.
Proof. intros H1 H2. apply publish_topic_iff; auto. apply utf8_valid_iff, H1. Qed.
Lemma topic_filter_by t : utf8_valid t = true -> validate_subscribe_filter t = None -> topic_filter t.
Proof. intros H1 H2. apply subscribe_filter_iff; auto. apply utf8_valid_iff, H1. Qed.
Ltac name_tac := apply topic_name_by; vm_compute; reflexivity.
Ltac filter_tac := apply topic_filter_by; vm_compute; reflexivity.
Ltac match_tac := apply matches_iff; vm_compute; repeat constructor.
Ltac nomatch_tac := rewrite matches_iff; vm_compute; intros H;
  repeat match goal with H : level_match _ _ |- _ => inversion H; clear H; subst end.

Definition ex_msg (t : string) (retain : bool) (payload : string) : message :=
  Mk_message None (str t) false AtMostOnce retain (Some (str payload)).

(** ** C19 *)
Theorem C19_publish_topic_validation s : utf8 s ->
  (validate_publish_topic s = None <-> topic_name s).
Proof. exact (publish_topic_iff s). Qed.
Print Assumptions C19_publish_topic_validation.
Example C19_ex : topic_name (str "sport/tennis/player1") /\ ~ topic_name (str "sport/+/player1") /\ ~ topic_name (str "").
Proof.
  split; [name_tac|].
  split; intros H; apply C19_publish_topic_validation in H; try discriminate;
    apply utf8_valid_iff; vm_compute; reflexivity.
Qed.

(** ** C20 *)
Theorem C20_filter_validation s : utf8 s ->
  (validate_subscribe_filter s = None <-> topic_filter s).
Proof. exact (subscribe_filter_iff s). Qed.
Print Assumptions C20_filter_validation.
Example C20_ex : topic_filter (str "sport/+/#") /\ ~ topic_filter (str "sport/#/x") /\ ~ topic_filter (str "sport+").
Proof.
  split; [filter_tac|].
  split; intros H; apply C20_filter_validation in H; try discriminate;
    apply utf8_valid_iff; vm_compute; reflexivity.
Qed.

(** ** C21: after any history, a filter subscribed at some point has received, in order
    and once each, exactly the later publications that match it. *)
Theorem C21_routing_exact {T} (os1 : list (tree_op T)) f os2 n1 n2 :
  on_names (pubs os2) ->
  tree_run (os1 ++ [TSub f]) new_node = Some n1 ->
  tree_run (os1 ++ TSub f :: os2) new_node = Some n2 ->
  exists vs, matching_values f (pubs os2) vs
    /\ log_at (levels f) n2 = log_at (levels f) n1 ++ vs.
Proof.
  intros H. apply tree_history. eapply Forall_impl; [|exact H]. intros [t v]. apply topic_name_plain.
Qed.
Print Assumptions C21_routing_exact.
(** The loop never fails. *)
Theorem C21_routing_total {T} (os : list (tree_op T)) : exists n, tree_run os new_node = Some n.
Proof. exact (tree_run_total os new_node). Qed.
Print Assumptions C21_routing_total.
Example C21_ex : exists n, tree_run [TSub (str "a/#"); TSub (str "a/+"); TSub (str "b"); TPub (str "a/b") 1; TPub (str "a") 2] new_node = Some n
  /\ log_at (levels (str "a/#")) n = [1; 2] /\ log_at (levels (str "a/+")) n = [1] /\ log_at (levels (str "b")) n = []
  /\ on_names [(str "a/b", 1); (str "a", 2)].
Proof.
  eexists. split; [vm_compute; reflexivity|]. repeat split; try (vm_compute; reflexivity).
  repeat constructor; name_tac.
Qed.

(** ** C22: away from '$'-topics the delivered messages are those of the MQTT rule. *)
Theorem C22_dollar_topics_partial f t :
  ~ starts_with 36 t \/ (~ starts_with 43 f /\ ~ starts_with 35 f) ->
  (matches f t <-> mqtt_matches f t).
Proof. unfold mqtt_matches. intros H. split; [|tauto]. intros Hm. split; auto. tauto. Qed.
Print Assumptions C22_dollar_topics_partial.
Example C22_ex : ~ starts_with 36 (str "a/b") /\ mqtt_matches (str "#") (str "a/b").
Proof.
  assert (~ starts_with 36 (str "a/b")) by (intros [r E]; discriminate).
  split; auto. apply C22_dollar_topics_partial; auto. match_tac.
Qed.
(** A subscriber to "#" receives "$SYS/x" live and as a retained message. *)
Theorem C22_dollar_topics_refuted : exists f t m,
  topic_filter f /\ topic_name t /\ ~ mqtt_matches f t
  /\ sy_out (sub_run f [SOp (BPub t m); SPoll] (sub_start f broker_new)) = [m]
  /\ sy_out (sub_run f [SPoll] (sub_start f (broker_run [BPub t m] broker_new))) = [m].
Proof.
  exists (str "#"), (str "$SYS/x"), (ex_msg "$SYS/x" true "v").
  split; [filter_tac|]. split; [name_tac|]. split; [|split; vm_compute; reflexivity].
  intros [_ H]. apply H. split; [eexists; reflexivity | right; eexists; reflexivity].
Qed.
Print Assumptions C22_dollar_topics_refuted.

(** ** C23: one retained publish reaches a subscription live iff a lookup of the filter finds it. *)
Theorem C23_retained_live_same_matching subs f t m :
  topic_filter f -> topic_name t -> mg_retain m = true -> ~ empty_payload m ->
  let b := broker_run (map BSub subs ++ [BSub f; BPub t m]) broker_new in
  (matches f t /\ log_at (levels f) (bk_tree b) = [m] /\ mem_get_retained f (bk_store b) = [with_retain true m])
  \/ (~ matches f t /\ log_at (levels f) (bk_tree b) = [] /\ mem_get_retained f (bk_store b) = []).
Proof.
  intros Hf Ht Hr He b.
  set (b1 := broker_run (map BSub subs) broker_new).
  assert (H1 : forall q, log_at q (bk_tree b1) = []).
  { unfold b1. induction subs as [|g subs IH] using rev_ind; intros q.
    - unfold log_at. destruct q; reflexivity.
    - rewrite map_app. unfold broker_run. rewrite fold_left_app. simpl.
      rewrite log_at_subscribe. apply IH. }
  assert (Hb : b = broker_publish t m (snd (broker_subscribe f b1))).
  { unfold b, broker_run. rewrite fold_left_app. reflexivity. }
  assert (Hlog : log_at (levels f) (bk_tree b) = (if matches_dec f t then [m] else [])).
  { rewrite Hb. simpl. rewrite route_log.
    - rewrite log_at_subscribe, H1. reflexivity.
    - apply topic_name_plain, Ht.
    - apply node_at_subscribe. right. exists []. rewrite app_nil_r. reflexivity. }
  assert (Hpub : published (map BSub subs ++ [BSub f; BPub t m]) = [(t, m)]).
  { unfold published. rewrite flat_map_app. simpl. clear.
    induction subs as [|g subs IH]; simpl; auto. }
  pose proof (ret_inv_run (map BSub subs ++ [BSub f; BPub t m])) as Hinv. fold b in Hinv. rewrite Hpub in Hinv.
  destruct (ret_inv_get _ _ f Hinv (topic_filter_ok f Hf)) as (ts & Hnd & Hts & HF).
  assert (Hra : retained_after t [(t, m)] (Some m)) by (apply (ra_set t []); auto).
  assert (Honly : forall t' m', retained_after t' [(t, m)] (Some m') -> t' = t /\ m' = m).
  { intros t' m' H'. change [(t, m)] with ([] ++ [(t, m)]) in H'. apply ra_snoc_inv in H'.
    destruct H' as [(E&_&_&E2)|[(_&_&_&E2)|(_&H')]]; [injection E2 as ->; auto|discriminate|].
    apply ra_nil_inv in H'. discriminate. }
  destruct (matches_dec f t) as [Hm|Hm]; [left|right]; (split; [exact Hm|split; [exact Hlog|]]).
  - assert (ts = [t]) as ->.
    { assert (Hin : In t ts) by (apply Hts; eauto).
      assert (Hall : forall x, In x ts -> x = t).
      { intros x Hx. apply Hts in Hx. destruct Hx as [_ [m' Hx]]. apply Honly in Hx. tauto. }
      destruct ts as [|x [|y ts]].
      - contradiction.
      - f_equal. apply Hall. left; auto.
      - exfalso. inversion Hnd as [|? ? Hni]; subst. apply Hni. left.
        rewrite (Hall x), (Hall y); simpl; auto. }
    inversion HF as [|? w ? ws (m0 & Hm0 & ->) HF2]; subst. inversion HF2; subst.
    apply Honly in Hm0. destruct Hm0 as [_ ->]. reflexivity.
  - destruct ts as [|x ts]; [inversion HF; reflexivity|]. exfalso.
    assert (Hx : In x (x :: ts)) by (left; auto). apply Hts in Hx. destruct Hx as [Hx [m' Hx2]].
    apply Honly in Hx2. destruct Hx2 as [-> _]. contradiction.
Qed.
Print Assumptions C23_retained_live_same_matching.
Example C23_ex : topic_filter (str "a/#") /\ topic_name (str "a") /\ matches (str "a/#") (str "a") /\ ~ empty_payload (ex_msg "a" true "v").
Proof.
  split; [filter_tac|]. split; [name_tac|]. split; [match_tac|]. intros [H|H]; discriminate.
Qed.

(** ** C24: what a new subscriber is given after any history of broker calls. *)
Theorem C24_retained_last_per_topic os f : topic_filter f ->
  exists ts, NoDup ts
    /\ (forall t, In t ts <-> matches f t /\ exists m, retained_after t (published os) (Some m))
    /\ Forall2 (fun t m => exists m0, retained_after t (published os) (Some m0) /\ m = with_retain true m0)
         ts (st_retained (fst (broker_subscribe f (broker_run os broker_new)))).
Proof. intros H. exact (ret_inv_get _ _ f (ret_inv_run os) (topic_filter_ok f H)). Qed.
Print Assumptions C24_retained_last_per_topic.
(** The specification gives one answer per topic. *)
Theorem C24_retained_unique t h o o' : retained_after t h o -> retained_after t h o' -> o = o'.
Proof. apply retained_after_fun. Qed.
Print Assumptions C24_retained_unique.
Example C24_ex :
  let a := ex_msg "a" true "1" in let b := ex_msg "b" true "2" in let c := ex_msg "a" false "3" in
  st_retained (fst (broker_subscribe (str "#") (broker_run
    [BPub (str "a") a; BPub (str "b") b; BPub (str "a") c; BPub (str "b") (ex_msg "b" true "")] broker_new)))
  = [a] /\ retained_after (str "a") [(str "a", a); (str "b", b); (str "a", c)] (Some a).
Proof.
  split; [vm_compute; reflexivity|].
  apply (ra_other _ [(str "a", ex_msg "a" true "1"); (str "b", ex_msg "b" true "2")]); [right; reflexivity|].
  apply (ra_other _ [(str "a", ex_msg "a" true "1")]); [left; discriminate|].
  apply (ra_set _ []); [reflexivity|]. intros [H|H]; discriminate.
Qed.

(** ** C25: any number of publishes [pub i], each storing then routing, race with one subscribe. *)
Theorem C25_no_lost_retained f pub os es i t m :
  topic_filter f -> (forall j, topic_name (fst (pub j))) ->
  pub i = (t, m) -> mg_retain m = true -> matches f t ->
  NoDup es -> before (PStore i) (PRoute i) es -> before SRegister SLookup es ->
  let r := race_run f pub es (race_init (broker_run os broker_new)) in
  exists start ret, rc_start r = Some start /\ rc_retained r = Some ret
    /\ (In m (skipn start (log_at (levels f) (bk_tree (rc_broker r))))
        \/ exists j m', pub j = (t, m') /\ mg_retain m' = true
            /\ (j = i \/ before (PStore i) (PStore j) es)
            /\ before (PStore j) SLookup es
            /\ (~ empty_payload m' -> In (with_retain true m') ret)).
Proof.
  intros Hf Hp. apply no_lost_retained with (h := published os).
  - intros j. apply topic_name_plain, Hp.
  - apply topic_filter_ok, Hf.
  - apply ret_inv_run.
Qed.
Print Assumptions C25_no_lost_retained.
Definition ex_pubs (i : nat) : bytes * message :=
  (str "a", ex_msg "a" true (match i with O => "0" | _ => "1" end)%string).
Example C25_ex : let es := [PStore 1; SRegister; PStore 0; SLookup; PRoute 0; PRoute 1] in
  NoDup es /\ before (PStore 1) (PRoute 1) es /\ before SRegister SLookup es /\
  rc_retained (race_run (str "a") ex_pubs es (race_init broker_new)) = Some [snd (ex_pubs 0)].
Proof.
  split; [repeat constructor; simpl; intuition discriminate|].
  split; [exists [], [SRegister; PStore 0; SLookup; PRoute 0], []; reflexivity|].
  split; [exists [PStore 1], [PStore 0], [PRoute 0; PRoute 1]; reflexivity|]. vm_compute. reflexivity.
Qed.

(** ** C26: without overlapping publishes, the retained message of a topic is the last
    live one. *)
Theorem C26_retained_is_last_live_partial os1 os2 os3 f t m :
  topic_name t -> on_names (published os2) -> on_names (published os3) ->
  matches f t -> mg_retain m = true -> ~ empty_payload m ->
  (forall m', ~ In (t, m') (published os3)) ->
  let b1 := broker_run (os1 ++ [BSub f]) broker_new in
  let b := broker_run (os1 ++ BSub f :: os2 ++ BPub t m :: os3) broker_new in
  retained_after t (published (os1 ++ BSub f :: os2 ++ BPub t m :: os3)) (Some m)
  /\ exists l2 l3, matching_values f (published os2) l2 /\ matching_values f (published os3) l3
     /\ log_at (levels f) (bk_tree b) = log_at (levels f) (bk_tree b1) ++ l2 ++ m :: l3.
Proof.
  intros Ht H2 H3 Hm Hr He Hno b1 b. split.
  - unfold published. rewrite flat_map_app. simpl. rewrite flat_map_app. simpl.
    fold (published os1) (published os2) (published os3).
    assert (G : forall h l, (forall m', ~ In (t, m') l) -> retained_after t (h ++ (t, m) :: l) (Some m)).
    { intros h l. induction l as [|[t' x] l IH] using rev_ind; intros Hl; [apply ra_set; auto|].
      change ((t, m) :: l ++ [(t', x)]) with (((t, m) :: l) ++ [(t', x)]). rewrite app_assoc. apply ra_other.
      - left. intros ->. apply (Hl x), in_app_iff. right. left. auto.
      - apply IH. intros m' Hi. apply (Hl m'), in_app_iff. auto. }
    rewrite app_assoc. apply G. exact Hno.
  - assert (Hn : node_at (levels f) (bk_tree b1) <> None).
    { unfold b1, broker_run. rewrite fold_left_app. simpl. apply node_at_subscribe. right. exists [].
      rewrite app_nil_r. reflexivity. }
    assert (Eb : b = broker_run (os2 ++ BPub t m :: os3) b1).
    { unfold b, b1, broker_run. rewrite !fold_left_app. simpl. rewrite fold_left_app. reflexivity. }
    destruct (broker_run_log f (os2 ++ BPub t m :: os3) b1) as (_ & vs & Hv & E); [|exact Hn|].
    { unfold op_topics, published. rewrite flat_map_app. apply Forall_app. split.
      - eapply Forall_impl; [|exact H2]. intros [x y]. apply topic_name_plain.
      - simpl. constructor; [apply topic_name_plain, Ht|].
        eapply Forall_impl; [|exact H3]. intros [x y]. apply topic_name_plain. }
    unfold published in Hv. rewrite flat_map_app in Hv. apply matching_values_app_inv in Hv.
    destruct Hv as (l2 & l3' & -> & Hl2 & Hl3). simpl in Hl3. inversion Hl3; subst; [|contradiction].
    exists l2, vs. rewrite Eb, E. auto.
Qed.
Print Assumptions C26_retained_is_last_live_partial.
Example C26_ex : let m := ex_msg "a" true "2" in
  matches (str "+") (str "a") /\ ~ empty_payload m /\
  log_at (levels (str "+")) (bk_tree (broker_run ([] ++ BSub (str "+") :: [BPub (str "a") (ex_msg "a" true "1")] ++ BPub (str "a") m :: []) broker_new))
  = [ex_msg "a" true "1"; m].
Proof. split; [match_tac|]. split; [intros [H|H]; discriminate | vm_compute; reflexivity]. Qed.
(** Two overlapping publishes: subscribers see publish 0 last, but publish 1 stays retained. *)
Theorem C26_retained_is_last_live_refuted : exists f pub es,
  NoDup es /\ before (PStore 0) (PRoute 0) es /\ before (PStore 1) (PRoute 1) es /\
  let r := race_run f pub es (race_init (broker_run [BSub f] broker_new)) in
  log_at (levels f) (bk_tree (rc_broker r)) = [snd (pub 1%nat); snd (pub 0%nat)] /\
  mem_get_retained f (bk_store (rc_broker r)) = [snd (pub 1%nat)] /\
  snd (pub 0%nat) <> snd (pub 1%nat) /\ fst (pub 0%nat) = fst (pub 1%nat).
Proof.
  exists (str "a"), ex_pubs, [PStore 0; PStore 1; PRoute 1; PRoute 0].
  split; [repeat constructor; simpl; intuition discriminate|].
  split; [exists [], [PStore 1; PRoute 1], []; reflexivity|].
  split; [exists [PStore 0], [], [PRoute 0]; reflexivity|].
  simpl. repeat split; try (vm_compute; reflexivity). discriminate.
Qed.
Print Assumptions C26_retained_is_last_live_refuted.

(** ** C27: a subscriber's stream, for all interleavings of broker calls and polls. *)
Theorem C27_in_order_no_duplicates f os es : topic_filter f -> on_names (published (ops_of es)) ->
  let b := broker_run os broker_new in
  exists given rest live vs,
    mem_get_retained f (bk_store b) = given ++ rest
    /\ sy_out (sub_run f es (sub_start f b)) = given ++ live
    /\ (rest <> [] -> live = [])
    /\ matching_values f (published (ops_of es)) vs /\ subseq live vs.
Proof.
  intros Hf H b. apply sub_in_order. eapply Forall_impl; [|exact H]. intros [t v]. apply topic_name_plain.
Qed.
Print Assumptions C27_in_order_no_duplicates.
(** Nothing is lost as long as at most 16 matching messages are waiting; when polling
    gives nothing more, everything has been received. *)
Theorem C27_no_loss_partial f os es : topic_filter f -> on_names (published (ops_of es)) ->
  let b := broker_run os broker_new in
  let ret := mem_get_retained f (bk_store b) in
  (forall es1 es2 vs, es = es1 ++ es2 -> matching_values f (published (ops_of es1)) vs ->
     (length vs <= length (sy_out (sub_run f es1 (sub_start f b))) - length ret + 16)%nat) ->
  exists vs, matching_values f (published (ops_of es)) vs
    /\ let s := sub_run f es (sub_start f b) in
       sy_out s = firstn (length (sy_out s)) (ret ++ vs)
       /\ (sub_step f s SPoll = s -> sy_out s = ret ++ vs).
Proof.
  intros Hf H b ret Hl. apply sub_lossless; [|exact Hl].
  eapply Forall_impl; [|exact H]. intros [t v]. apply topic_name_plain.
Qed.
Print Assumptions C27_no_loss_partial.
Example C27_ex : let m := ex_msg "a" false "1" in let r := ex_msg "a" true "0" in
  sy_out (sub_run (str "+") [SOp (BPub (str "a") m); SPoll; SOp (BPub (str "b/c") m); SPoll; SPoll]
    (sub_start (str "+") (broker_run [BPub (str "a") r] broker_new))) = [r; m]
  /\ topic_filter (str "+") /\ topic_name (str "b/c").
Proof. split; [vm_compute; reflexivity|]. split; [filter_tac | name_tac]. Qed.
(** With 17 messages waiting the first one is lost. *)
Theorem C27_loss_refuted : exists f t (ms : list message),
  topic_filter f /\ topic_name t /\ matches f t /\ length ms = 17%nat /\ NoDup ms /\
  sy_out (sub_run f (map (fun m => SOp (BPub t m)) ms ++ repeat SPoll 40) (sub_start f broker_new)) = tl ms.
Proof.
  exists (str "a"), (str "a"), (map (fun i => Mk_message None (str "a") false AtMostOnce false (Some [i]))
    [0;1;2;3;4;5;6;7;8;9;10;11;12;13;14;15;16]).
  split; [filter_tac|]. split; [name_tac|]. split; [match_tac|]. split; [reflexivity|].
  split; [|vm_compute; reflexivity]. repeat constructor; simpl; intuition discriminate.
Qed.
Print Assumptions C27_loss_refuted.
