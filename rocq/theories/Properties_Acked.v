(** Property C125: messages that a client has acknowledged, while handlers interleave and the broker stops and starts.
    Every theorem is followed by a concrete case meeting its hypotheses. *)
From Coq Require Import String.
From Verif Require Import Base Utf8 Codec SpecCodec Tac CodecFacts Str Maps Topic SpecTopic TopicFacts Property PacketProps Packets
  TopicTree TreeFacts Storage StorageFacts Broker Auth Session Server SpecServer SessionFacts ServerFacts HandlerFacts HistoryFacts
  ResumeFacts Conc SpecConc ConcFacts ConcLocks ConcRoute ConcOwn ConcProv SpecDurable ConcStore SpecLives ConcLives SpecUnsub ConcUnsub
  SpecAcked ConcAcked Examples Properties_Routing Properties_Conc Properties_Provenance Properties_Durable Properties_Unsub.
Local Open Scope list_scope.

(** Once the PUBACK or PUBCOMP for identifier [n] has been handled, no PUBLISH with this identifier is sent to the client when it comes
    back in any later life, unless the broker has sent, or has been about to send, another PUBLISH with [n] in between. *)
Theorem C125_over_lives cfg trs st tr x c id n pre mid rest st2 tr2 x2 d q before :
  lives cfg trs st -> mruns cfg (conf_on st) tr x -> (forall d, Forall texts (events_of d tr)) -> owns c id tr ->
  settled c n pre mid rest tr -> not_sent c n rest -> at_rest c x ->
  without_another cfg id n (w_store (cn_world x)) st2 ->
  mruns cfg (conf_on st2) tr2 x2 -> (forall d, Forall texts (events_of d tr2)) -> owns d id tr2 ->
  sent_again d q before tr2 -> not_sent d n before -> pb_packet_id q <> Some n.
Proof.
  intros Hl Hr Ht Ho Hs Hn Hx Hp Hr2 Ht2 Ho2 Hq Hn2. destruct (settled_free _ _ _ _ _ _ _ _ _ _ _ Hl Hr Ht Ho Hs) as (y & Hy & Hf & F).
  pose proof (free_rest _ _ _ _ (free_runs cfg c id n _ _ _ Hy F Hn Hf) Hx) as Hc. pose proof (lv_more _ _ _ _ _ Hl Hr Ht) as Hl1. destruct (another_lives _ _ _ _ _ _ Hl1 Hp Hc) as [(trs2 & Hl2) Hc2].
  pose proof (lives_sane _ _ _ Hl2) as Hsane. destruct (owned_fair_in cfg _ x2 d id Hr2 Ht2 Ho2 tr2 ltac:(auto)) as [F2 _].
  exact (again_free cfg d id n _ tr2 x2 q before Hr2 F2 (free_on _ _ _ _ Hc2) Hq Hn2).
Qed.
Print Assumptions C125_over_lives.

(** ** Cases *)
(** Client a subscribes and is sent two messages, with the identifiers of their PUBLISH packets, 5 and 6. It acknowledges
    the first, while client b publishes another one, and loses the connection. The broker starts again and client a comes back on connection 3. *)
Definition ex_mid (n : N) (q : qos) (v : string) := EPacket 2 (Publish (Examples.ex_publish q (Some n) false "x/y" v)).
Definition ex_ack (k : ack_packet -> packet) := EPacket 1 (k (Mk_ack_packet 5 Success None)).
Definition ex_ak_moves (q : qos) (k : ack_packet -> packet) : list move :=
  starts [ex_first 1 (ex_connect "a" false); ex_first 2 (ex_connect "b" true)] ++ rounds 40 [1; 2]%nat ++
  starts [ex_sub 1 "x/y"] ++ rounds 40 [1]%nat ++ starts [ex_mid 5 q "u"] ++ rounds 40 [2]%nat ++ starts [EOut 1 (str "x/y")] ++ rounds 40 [1]%nat ++
  starts [ex_mid 6 q "v"] ++ rounds 40 [2]%nat ++ starts [EOut 1 (str "x/y")] ++ rounds 40 [1]%nat ++
  starts [ex_ack k; ex_mid 7 q "w"] ++ rounds 40 [1; 2]%nat ++ starts [EEnd 1] ++ rounds 40 [1]%nat.
Definition ex_ak_tr (q : qos) (k : ack_packet -> packet) := snd (mexec ex_open (ex_ak_moves q k) conf_new).
Definition ex_ak_x (q : qos) (k : ack_packet -> packet) := fst (mexec ex_open (ex_ak_moves q k) conf_new).
Notation ex_ak_st q k := (w_store (cn_world (ex_ak_x q k))).
Definition ex_ak_moves2 : list move := starts [ex_first 3 (ex_connect "a" false)] ++ rounds 60 [3]%nat.
Definition ex_ak_tr2 (q : qos) (k : ack_packet -> packet) := snd (mexec ex_open ex_ak_moves2 (conf_on (ex_ak_st q k))).
Definition ids_to (c : nat) (tr : list item) : list (option N) := map pb_packet_id (publishes_to c tr).
Lemma not_sent_b c n tr : existsb (fun z => match z with Some m => N.eqb m n | None => false end) (ids_to c tr) = false -> not_sent c n tr.
Proof.
  intros H q Hi E. assert (In (Some n) (ids_to c tr)).
  { unfold ids_to. rewrite <- E. apply in_map. unfold publishes_to. apply in_flat_map. exists (Sent c (Publish q)). split; [|left; reflexivity].
    unfold outputs_of. apply in_flat_map. eexists. split; [exact Hi|]. cbn. rewrite Nat.eqb_refl. left. reflexivity. }
  match type of H with ?z = false => assert (z = true); [|congruence] end. apply existsb_exists. eexists. split; [eassumption|]. apply N.eqb_refl.
Qed.
Definition ex_ak_retry (q : qos) (n : N) (v : string) : publish_packet := Mk_publish_packet true q false (str "x/y") (Some n) None (Some (str v)).
(** The first [n] items of the second life are what happens before the message is sent again. *)
Lemma again_at n q tr : nth_error tr n = Some (IStep 3 (OOut (Sent 3 (Publish q)))) -> hd_error (firstn n tr) = Some (IStart (ex_first 3 (ex_connect "a" false))) ->
  existsb (fun e => Nat.eqb (event_conn e) 3) (all_events (tl (firstn n tr))) = false -> sent_again 3 q (firstn n tr) tr.
Proof.
  intros H1 H2 H3. destruct (nth_error_split _ _ H1) as (l1 & l2 & -> & Hn). assert (E : firstn n (l1 ++ IStep 3 (OOut (Sent 3 (Publish q))) :: l2) = l1) by (subst n; rewrite firstn_app, Nat.sub_diag, firstn_all; apply app_nil_r).
  rewrite E in *. destruct l1 as [|i b]; [discriminate|]. injection H2 as ->. cbn [tl] in H3. eexists [], _, _, _, b, l2. split; [reflexivity|]. split; [reflexivity|]. apply no_start_b, H3.
Qed.
Lemma ex_ak_owns2 q k : comers (ex_ak_tr2 q k) = [(3%nat, str "a", str "uuid")] -> owns 3 (str "a") (ex_ak_tr2 q k).
Proof. intros H. apply owns_comers. rewrite H. intros d i u [E|[]]; injection E as <- <- <-. split; [discriminate|]. left. auto. Qed.
Lemma ex_ak_owns q k : comers (ex_ak_tr q k) = [(1%nat, str "a", str "uuid"); (2%nat, str "b", str "uuid")] -> owns 1 (str "a") (ex_ak_tr q k).
Proof. intros H. apply owns_comers. rewrite H. intros d i u [E|[E|[]]]; injection E as <- <- <-; (split; [discriminate|]); [left; auto|right; split; discriminate]. Qed.
Example C125_ex : let tr := ex_ak_tr AtLeastOnce PubAck in let tr2 := ex_ak_tr2 AtLeastOnce PubAck in
  lives ex_open [] mem_new /\ mruns ex_open (conf_on mem_new) tr (ex_ak_x AtLeastOnce PubAck) /\ (forall d, Forall texts (events_of d tr)) /\ owns 1 (str "a") tr
  /\ settled 1 5 (part1 1 4 tr) (part2 1 4 tr) (part3 1 4 tr) tr /\ not_sent 1 5 (part3 1 4 tr) /\ at_rest 1 (ex_ak_x AtLeastOnce PubAck)
  /\ without_another ex_open (str "a") 5 (ex_ak_st AtLeastOnce PubAck) (ex_ak_st AtLeastOnce PubAck)
  /\ (exists x2, mruns ex_open (conf_on (ex_ak_st AtLeastOnce PubAck)) tr2 x2) /\ (forall d, Forall texts (events_of d tr2)) /\ owns 3 (str "a") tr2
  /\ sent_again 3 (ex_ak_retry AtLeastOnce 6 "v") (firstn 19 tr2) tr2 /\ not_sent 3 5 (firstn 19 tr2)
  /\ ids_to 1 tr = [Some 5; Some 6] /\ ids_to 3 tr2 = [Some 6].
Proof.
  intros tr tr2. split; [constructor|]. split; [exact (mexec_runs ex_open (ex_ak_moves AtLeastOnce PubAck) conf_new)|]. split; [apply texts_all; vm_compute; reflexivity|]. split; [apply ex_ak_owns; vm_compute; reflexivity|].
  split.
  { exists (PubAck (Mk_ack_packet 5 Success None)). split; [vm_compute; reflexivity|]. split; [eexists; split; [|left; reflexivity]; reflexivity|]. split; [apply no_start_b; vm_compute; reflexivity|].
    exists (OStore (RemoveInflight (str "a") 5) (RUnit)). let rec go n := first [eapply (nth_error_In _ n); vm_compute; reflexivity|let m := eval vm_compute in (Nat.ltb n 60) in constr_eq m true; go (S n)] in go 0%nat. }
  split; [apply not_sent_b; vm_compute; reflexivity|]. split; [vm_compute; reflexivity|]. split; [constructor|].
  split; [exists (fst (mexec ex_open ex_ak_moves2 (conf_on (ex_ak_st AtLeastOnce PubAck)))); apply mexec_runs|]. split; [apply texts_all; vm_compute; reflexivity|]. split; [apply ex_ak_owns2; vm_compute; reflexivity|].
  split; [apply again_at; vm_compute; reflexivity|]. split; [apply not_sent_b; vm_compute; reflexivity|]. split; vm_compute; reflexivity.
Qed.
(** A PUBREC does not have this effect, although the client has the message and has been sent the PUBREL: the message is sent again
    (MQTT 5.0, 4.3.3, says that the PUBLISH must not be sent again once the PUBREL has been). *)
Theorem C125_received_refuted : exists cfg tr x c id n a pre mid rest tr2 x2 d q before,
  mruns cfg conf_new tr x /\ (forall d, Forall texts (events_of d tr)) /\ owns c id tr
  /\ tr = pre ++ IStart (EPacket c (PubRec a)) :: mid ++ IEnd c :: rest /\ ak_packet_id a = n /\ (forall e, In (IStart e) mid -> event_conn e <> c)
  /\ In (Sent c (PubRel (Mk_ack_packet n Success None))) (outputs_of c mid) /\ not_sent c n rest /\ at_rest c x
  /\ mruns cfg (conf_on (w_store (cn_world x))) tr2 x2 /\ owns d id tr2 /\ sent_again d q before tr2 /\ not_sent d n before /\ pb_packet_id q = Some n.
Proof.
  exists ex_open, (ex_ak_tr ExactlyOnce PubRec), (ex_ak_x ExactlyOnce PubRec), 1%nat, (str "a"), 5, (Mk_ack_packet 5 Success None).
  exists (part1 1 4 (ex_ak_tr ExactlyOnce PubRec)), (part2 1 4 (ex_ak_tr ExactlyOnce PubRec)), (part3 1 4 (ex_ak_tr ExactlyOnce PubRec)).
  exists (ex_ak_tr2 ExactlyOnce PubRec), (fst (mexec ex_open ex_ak_moves2 (conf_on (ex_ak_st ExactlyOnce PubRec)))), 3%nat, (ex_ak_retry ExactlyOnce 5 "u"), (firstn 19 (ex_ak_tr2 ExactlyOnce PubRec)).
  split; [exact (mexec_runs ex_open (ex_ak_moves ExactlyOnce PubRec) conf_new)|]. split; [apply texts_all; vm_compute; reflexivity|]. split; [apply ex_ak_owns; vm_compute; reflexivity|].
  split; [vm_compute; reflexivity|]. split; [reflexivity|]. split; [apply no_start_b; vm_compute; reflexivity|]. split; [vm_compute; left; reflexivity|].
  split; [apply not_sent_b; vm_compute; reflexivity|]. split; [vm_compute; reflexivity|]. split; [apply mexec_runs|]. split; [apply ex_ak_owns2; vm_compute; reflexivity|].
  split; [apply again_at; vm_compute; reflexivity|]. split; [apply not_sent_b; vm_compute; reflexivity|reflexivity].
Qed.
Print Assumptions C125_received_refuted.
