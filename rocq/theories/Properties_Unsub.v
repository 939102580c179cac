(** Property C122: subscriptions that were given up, while handlers interleave and the broker stops and starts.
    Every theorem is followed by a concrete case meeting its hypotheses. *)
From Coq Require Import String.
From Verif Require Import Base Utf8 Codec SpecCodec Tac CodecFacts Str Maps Topic SpecTopic TopicFacts Property PacketProps Packets
  TopicTree TreeFacts Storage StorageFacts Broker Auth Session Server SpecServer SessionFacts ServerFacts HandlerFacts HistoryFacts
  ResumeFacts Conc SpecConc ConcFacts ConcLocks ConcRoute ConcOwn ConcProv SpecDurable ConcStore SpecLives ConcLives SpecUnsub ConcUnsub
  Examples Properties_Routing Properties_Conc Properties_Provenance Properties_Durable.
Local Open Scope list_scope.

(** In the life [tr] connection [c] sends the UNSUBSCRIBE [p], which names [f], and is sent the UNSUBACK before [rest]. *)
Definition gives_up (c : nat) (f : bytes) (p : unsubscribe_packet) (pre mid rest tr : list item) : Prop :=
  tr = pre ++ IStart (EPacket c (Unsubscribe p)) :: mid ++ rest /\ In f (us_payload p)
  /\ (forall e, In (IStart e) mid -> event_conn e <> c) /\ exists a, In (IStep c (OOut (Sent c (UnsubAck a)))) mid.
(** The connection is sent the PUBLISH [q] for [f]. *)
Definition delivered (c : nat) (f : bytes) (q : publish_packet) (tr : list item) : Prop := In (IStep c (OOut (Sent c (Publish q)))) tr /\ pb_topic q = f.

(** From the UNSUBACK on the client is sent nothing for the filter, as long as it stays connected and does not ask again: also not
    what had been waiting for it, and not what is being published at this moment. *)
Theorem C122_silence cfg trs st tr x c id f p pre mid rest q :
  lives cfg trs st -> mruns cfg (conf_on st) tr x -> (forall d, Forall texts (events_of d tr)) -> owns c id tr ->
  gives_up c f p pre mid rest tr -> unasked c f rest -> goes_on_only c rest -> ~ delivered c f q rest.
Proof.
  intros Hl Hr Ht Ho (-> & Hf & Hm & Ha) Hu Hg [Hq Ht']. pose proof (lives_sane _ _ _ Hl) as Hsane.
  destruct (given_up cfg c id f p pre mid rest x false Hr Ht Ho Hf Ha Hm Hu (fun _ => Hg)) as (y & Hy & Hs & _).
  pose proof (owned_fair cfg _ x c id f false Hr Ht Ho rest) as Hfair.
  pose proof (fun F => silent_runs c id f false _ cfg y rest x Hy F Hs) as H. edestruct H as [_ H1]; [apply Hfair; [|exact Hu|intros _; exact Hg]|].
  - intros i Hi. apply in_or_app. right. right. apply in_or_app. right. exact Hi.
  - destruct (H1 q Hq Ht'); discriminate.
Qed.
Print Assumptions C122_silence.
(** When it disconnects and comes back, with or without clean start, it may be sent again what it has not acknowledged, marked as a
    duplicate, and nothing else. *)
Theorem C122_after_reconnecting cfg trs st tr x c id f p pre mid rest q :
  lives cfg trs st -> mruns cfg (conf_on st) tr x -> (forall d, Forall texts (events_of d tr)) -> owns c id tr ->
  gives_up c f p pre mid rest tr -> unasked c f rest -> delivered c f q rest -> pb_dup q = true.
Proof.
  intros Hl Hr Ht Ho (-> & Hf & Hm & Ha) Hu [Hq Ht']. pose proof (lives_sane _ _ _ Hl) as Hsane.
  destruct (given_up cfg c id f p pre mid rest x true Hr Ht Ho Hf Ha Hm Hu ltac:(discriminate)) as (y & Hy & Hs & _).
  pose proof (owned_fair cfg _ x c id f true Hr Ht Ho rest) as Hfair.
  pose proof (fun F => silent_runs c id f true _ cfg y rest x Hy F Hs) as H. edestruct H as [_ H1]; [apply Hfair; [|exact Hu|discriminate]|].
  - intros i Hi. apply in_or_app. right. right. apply in_or_app. right. exact Hi.
  - apply (H1 q Hq Ht').
Qed.
Print Assumptions C122_after_reconnecting.
Lemma passes_lives cfg P trs st st' : lives cfg trs st -> passes cfg P st st' -> exists trs', lives cfg trs' st'.
Proof. intros Hl. induction 1 as [|st1 tr x H (trs' & IH) Hr Ht Hp]; [eauto|]. eexists. eapply lv_more; eauto. Qed.
Lemma life_lacks cfg trs st tr x d id f : lives cfg trs st -> mruns cfg (conf_on st) tr x -> (forall c, Forall texts (events_of c tr)) -> owns d id tr -> unasked d f tr -> slacks id f st ->
  slacks id f (w_store (cn_world x)) /\ forall q, delivered d f q tr -> pb_dup q = true.
Proof.
  intros Hl Hr Ht Ho Hu Hs. pose proof (lives_sane _ _ _ Hl) as Hsane.
  destruct (silent_runs d id f true (mine d tr) cfg _ tr x Hr) as [(J & (_ & _ & _ & _ & H1) & _) H2].
  - apply (owned_fair cfg tr x d id f true Hr Ht Ho tr); auto. discriminate.
  - apply silent_on, Hs.
  - split; [exact H1|]. intros q [Hq Hf]. apply (H2 q Hq Hf).
Qed.
Lemma passes_lacks cfg trs st st' id f : lives cfg trs st -> passes cfg (without_asking id f) st st' -> slacks id f st -> slacks id f st'.
Proof.
  intros Hl. induction 1 as [|st1 tr x H IH Hr Ht (d & Ho & Hu)]; intros Hs; [exact Hs|]. destruct (passes_lives _ _ _ _ _ Hl H) as (trs' & Hl').
  eapply life_lacks; eauto.
Qed.
(** The same in every later life, whenever the broker stopped after it had sent the UNSUBACK. *)
Theorem C122_over_lives cfg trs st tr x c id f p pre mid rest st2 tr2 x2 d q :
  lives cfg trs st -> mruns cfg (conf_on st) tr x -> (forall d, Forall texts (events_of d tr)) -> owns c id tr ->
  gives_up c f p pre mid rest tr -> unasked c f rest ->
  passes cfg (without_asking id f) (w_store (cn_world x)) st2 ->
  mruns cfg (conf_on st2) tr2 x2 -> (forall d, Forall texts (events_of d tr2)) -> owns d id tr2 -> unasked d f tr2 ->
  delivered d f q tr2 -> pb_dup q = true.
Proof.
  intros Hl Hr Ht Ho (-> & Hf & Hm & Ha) Hu Hp Hr2 Ht2 Ho2 Hu2 Hq. pose proof (lives_sane _ _ _ Hl) as Hsane.
  destruct (given_up cfg c id f p pre mid rest x true Hr Ht Ho Hf Ha Hm Hu ltac:(discriminate)) as (y & Hy & _ & (J & (_ & _ & _ & _ & Hs) & _)).
  pose proof (lv_more _ _ _ _ _ Hl Hr Ht) as Hl1. pose proof (passes_lacks _ _ _ _ _ _ Hl1 Hp Hs) as Hs2. destruct (passes_lives _ _ _ _ _ Hl1 Hp) as (trs2 & Hl2).
  eapply life_lacks; eauto.
Qed.
Print Assumptions C122_over_lives.

(** ** Cases *)
Definition asksb (c : nat) (f : bytes) (e : event) : bool := match e with EPacket d (Subscribe p) => Nat.eqb d c && existsb (bytes_eqb f) (map fst (sb_payload p)) | _ => false end.
Lemma unasked_b c f tr : existsb (asksb c f) (all_events tr) = false -> unasked c f tr.
Proof.
  intros H p Hi Hf. apply in_events in Hi. assert (existsb (asksb c f) (all_events tr) = true); [|congruence]. apply existsb_exists. eexists. split; [exact Hi|]. cbn. rewrite Nat.eqb_refl.
  apply existsb_exists. exists f. split; [exact Hf|apply beqb_spec; reflexivity].
Qed.
Lemma goes_on_b c tr : existsb (fun e => match e with EFirst d _ _ _ => Nat.eqb d c | _ => false end) (all_events tr) = false -> goes_on_only c tr.
Proof.
  intros H k u a Hi. apply in_events in Hi. match type of H with ?z = false => assert (z = true); [|congruence] end. apply existsb_exists. eexists. split; [exact Hi|]. cbn. apply Nat.eqb_refl.
Qed.
Lemma no_start_b c tr : existsb (fun e => Nat.eqb (event_conn e) c) (all_events tr) = false -> forall e, In (IStart e) tr -> event_conn e <> c.
Proof.
  intros H e Hi <-. apply in_events in Hi. match type of H with ?z = false => assert (z = true); [|congruence] end. apply existsb_exists. eexists. split; [exact Hi|]. cbn. apply Nat.eqb_refl.
Qed.
(** Client a subscribes to x/y and is sent one message, which it does not acknowledge; a second one waits. It unsubscribes while
    client b publishes a third message, and the broker looks for what to send to client a. *)
Definition ex_msg (v : string) := EPacket 2 (Publish (Examples.ex_publish AtLeastOnce (Some 5) false "x/y" v)).
Definition ex_un : unsubscribe_packet := Mk_unsubscribe_packet 9 None [str "z"; str "x/y"].
Definition ex_un_moves : list move :=
  starts [ex_first 1 (ex_connect "a" false); ex_first 2 (ex_connect "b" true)] ++ rounds 40 [1; 2]%nat ++
  starts [ex_sub 1 "x/y"] ++ rounds 40 [1]%nat ++ starts [ex_msg "u"] ++ rounds 40 [2]%nat ++ starts [EOut 1 (str "x/y")] ++ rounds 40 [1]%nat ++
  starts [ex_msg "v"] ++ rounds 40 [2]%nat ++ starts [EPacket 1 (Unsubscribe ex_un); ex_msg "w"] ++ rounds 40 [1; 2]%nat ++
  starts [EOut 1 (str "x/y")] ++ rounds 40 [1]%nat ++ starts [EEnd 1] ++ rounds 40 [1]%nat.
Definition ex_un_tr := snd (mexec ex_open ex_un_moves conf_new).
Definition ex_un_x := fst (mexec ex_open ex_un_moves conf_new).
Notation ex_un_st := (w_store (cn_world ex_un_x)).
(** The broker starts again; client a comes back on connection 3, and client b publishes. *)
Definition ex_un_moves2 : list move :=
  starts [ex_first 3 (ex_connect "a" false); ex_first 2 (ex_connect "b" true)] ++ rounds 60 [3; 2]%nat ++ starts [ex_msg "s"] ++ rounds 40 [2]%nat ++ starts [EOut 3 (str "x/y")] ++ rounds 40 [3]%nat.
Definition ex_un_tr2 := snd (mexec ex_open ex_un_moves2 (conf_on ex_un_st)).
Definition ex_un_retry : publish_packet := Mk_publish_packet true AtLeastOnce false (str "x/y") (Some 5) None (Some (str "u")).
Definition publishes_to (c : nat) (tr : list item) : list publish_packet :=
  flat_map (fun o => match o with Sent _ (Publish q) => [q] | _ => [] end) (outputs_of c tr).
Lemma outputs_in c o tr : In o (outputs_of c tr) -> In (IStep c (OOut o)) tr.
Proof.
  unfold outputs_of. intros H. apply in_flat_map in H. destruct H as (i & Hi & H). destruct i as [|d u|]; try contradiction. destruct u; try (destruct (Nat.eqb _ _); contradiction); try contradiction.
  destruct (Nat.eqb d c) eqn:E; [|contradiction]. apply Nat.eqb_eq in E. destruct H as [<-|[]]. subst. exact Hi.
Qed.
Example C122_ex : let tr := ex_un_tr in let pre := part1 1 3 tr in let mid := part2 1 3 tr in let rest := IEnd 1 :: part3 1 3 tr in
  lives ex_open [] mem_new /\ mruns ex_open (conf_on mem_new) tr ex_un_x /\ (forall d, Forall texts (events_of d tr)) /\ owns 1 (str "a") tr
  /\ gives_up 1 (str "x/y") ex_un pre mid rest tr /\ unasked 1 (str "x/y") rest /\ goes_on_only 1 rest
  /\ map pb_payload (publishes_to 1 pre) = [Some (str "u")] /\ publishes_to 1 rest = [].
Proof.
  intros tr pre mid rest. split; [constructor|]. split; [exact (mexec_runs ex_open ex_un_moves conf_new)|]. split; [apply texts_all; vm_compute; reflexivity|]. split.
  { apply owns_comers. assert (H : comers tr = [(1%nat, str "a", str "uuid"); (2%nat, str "b", str "uuid")]) by (vm_compute; reflexivity). rewrite H.
    intros d i u [E|[E|[]]]; injection E as <- <- <-; (split; [discriminate|]); [left; auto|right; split; discriminate]. }
  split.
  { split; [vm_compute; reflexivity|]. split; [right; left; reflexivity|]. split; [apply no_start_b; vm_compute; reflexivity|].
    exists (Mk_unsuback_packet V5 9 None [NoSubscriptionExisted; Success]). let rec go n := first [eapply (nth_error_In _ n); vm_compute; reflexivity|let m := eval vm_compute in (Nat.ltb n 60) in constr_eq m true; go (S n)] in go 0%nat. }
  split; [apply unasked_b; vm_compute; reflexivity|]. split; [apply goes_on_b; vm_compute; reflexivity|]. split; vm_compute; reflexivity.
Qed.
Example C122_ex2 : let tr2 := ex_un_tr2 in
  passes ex_open (without_asking (str "a") (str "x/y")) ex_un_st ex_un_st /\ (exists x, mruns ex_open (conf_on ex_un_st) tr2 x) /\ (forall d, Forall texts (events_of d tr2))
  /\ owns 3 (str "a") tr2 /\ unasked 3 (str "x/y") tr2 /\ publishes_to 3 tr2 = [ex_un_retry].
Proof.
  intros tr2. split; [constructor|]. split; [exists (fst (mexec ex_open ex_un_moves2 (conf_on ex_un_st))); apply mexec_runs|]. split; [apply texts_all; vm_compute; reflexivity|]. split.
  { apply owns_comers. assert (H : comers tr2 = [(3%nat, str "a", str "uuid"); (2%nat, str "b", str "uuid")]) by (vm_compute; reflexivity). rewrite H.
    intros d i u [E|[E|[]]]; injection E as <- <- <-; (split; [discriminate|]); [left; auto|right; split; discriminate]. }
  split; [apply unasked_b; vm_compute; reflexivity|vm_compute; reflexivity].
Qed.
(** The exception is needed: in this case the client that gave x/y up before the broker stopped is sent a message for it afterwards. *)
Theorem C122_nothing_at_all_refuted : exists cfg tr x c id f p pre mid rest tr2 x2 d q,
  mruns cfg conf_new tr x /\ (forall d, Forall texts (events_of d tr)) /\ owns c id tr /\ gives_up c f p pre mid rest tr /\ unasked c f rest
  /\ mruns cfg (conf_on (w_store (cn_world x))) tr2 x2 /\ owns d id tr2 /\ unasked d f tr2 /\ delivered d f q tr2.
Proof.
  destruct C122_ex as (_ & H1 & H2 & H3 & H4 & H5 & _). destruct C122_ex2 as (_ & (x2 & H6) & _ & H7 & H8 & H9).
  exists ex_open, ex_un_tr, ex_un_x, 1%nat, (str "a"), (str "x/y"), ex_un, (part1 1 3 ex_un_tr), (part2 1 3 ex_un_tr), (IEnd 1 :: part3 1 3 ex_un_tr), ex_un_tr2, x2, 3%nat, ex_un_retry.
  cbv zeta in H6, H7, H8, H9.
  split; [exact H1|]. split; [exact H2|]. split; [exact H3|]. split; [exact H4|]. split; [exact H5|]. split; [exact H6|]. split; [exact H7|]. split; [exact H8|].
  split; [|reflexivity]. assert (Hd : In (Sent 3 (Publish ex_un_retry)) (outputs_of 3 ex_un_tr2)).
  { let rec go n := first [eapply (nth_error_In _ n); vm_compute; reflexivity|let m := eval vm_compute in (Nat.ltb n 9) in constr_eq m true; go (S n)] in go 0%nat. }
  clear - Hd. exact (outputs_in 3 _ _ Hd).
Qed.
Print Assumptions C122_nothing_at_all_refuted.
