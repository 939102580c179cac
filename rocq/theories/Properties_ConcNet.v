(** C112: the broker fed with bytes while the handlers of its connections are interleaved. *)
From Coq Require Import String.
From Verif Require Import Base Utf8 Str Codec SpecCodec Property SpecProperty PacketProps Packets SpecPackets Frame Tac ParseFacts FrameFacts Maps Topic SpecTopic TopicFacts CodecFacts
  Storage Broker Session Server SpecServer SessionFacts ServerFacts HandlerFacts WorldFacts SpecOutput SpecWire Conc SpecConc ConcFacts ConcLocks ConcRoute
  Network SpecNetwork NetworkFacts ConcNet SpecConcNet ConcNetFacts Examples Properties_Network Properties_Conc.
Local Open Scope list_scope.

(** However the bytes arrive and the tasks are scheduled, the handlers make one of the schedules of Conc.v, in which every
    packet was received: what is proved of all these schedules (C87-C93, C102, C107-C111) holds of the broker fed with bytes. *)
Theorem C112_schedules {st0} cfg p ms tr n : bruns cfg p (bnet_on st0) ms tr n -> genuine (net_part ms) ->
  mruns cfg (conf_on st0) tr (bn_conf n) /\ (forall e, In (IStart e) tr -> from_network e) /\ (forall c, Forall texts (events_of c tr)).
Proof.
  intros H Hg. split; [apply (bruns_conf _ _ _ _ _ _ H)|]. split; [eapply bruns_network; eassumption|eapply bruns_texts; eassumption].
Qed.
Print Assumptions C112_schedules.
(** The packets handled on a connection are those that can be read from its own bytes, each once and in order. *)
Theorem C112_handled_in_order {st0} cfg p ms tr n c : bruns cfg p (bnet_on st0) ms tr n ->
  exists b cs, reads_to p [] (arrived c (net_part ms)) (started c tr) b cs.
Proof. apply bruns_reads. Qed.
Print Assumptions C112_handled_in_order.
Theorem C112_sent_handled {st0} cfg p ms tr n c packets : bruns cfg p (bnet_on st0) ms tr n ->
  Forall (fun kb => sent (fst kb) (snd kb) /\ reads V5 (fst kb)) packets ->
  Forall (fun x => x <> []) (arrived c (net_part ms)) -> concat (arrived c (net_part ms)) = concat (map snd packets) ->
  exists rest, map (fun kb => canon (fst kb)) packets = started c tr ++ rest.
Proof.
  intros H Hs Hc E. destruct (bruns_reads _ _ _ _ _ _ c H) as (b & cs & Hr).
  destruct (reads_to_rest _ _ _ _ _ _ Hr _ _ (server_framing p packets _ Hs Hc E)) as (ks2 & -> & _). eauto.
Qed.
Print Assumptions C112_sent_handled.
(** As long as a connection is read from, its task can call [read_packet] whenever no handler of it is at work, and this
    starts the handler of the next packet, until there is none left. *)
Theorem C112_next_handled {st0} cfg p ms tr n c packets u a : bruns cfg p (bnet_on st0) ms tr n ->
  Forall (fun kb => sent (fst kb) (snd kb) /\ reads V5 (fst kb)) packets ->
  Forall (fun x => x <> []) (arrived c (net_part ms)) -> concat (arrived c (net_part ms)) = concat (map snd packets) ->
  reading c n ->
  exists n' is, bstep cfg p n (BNet (NPoll c u a)) = Some (n', is) /\
  ((map (fun kb => canon (fst kb)) packets = started c tr /\ started c is = []) \/
   exists k rest, map (fun kb => canon (fst kb)) packets = started c tr ++ k :: rest /\ started c is = [k]).
Proof.
  intros H Hs Hc E [Hi Hph]. pose proof (server_framing p packets _ Hs Hc E) as Hr.
  pose proof (bwell_on _ _ _ _ _ _ c H) as Hw. unfold bwell in Hw. cbn [bstep]. unfold busy. rewrite Hi. cbn [is_some].
  assert (Hrd : reads_to p [] (arrived c (net_part ms)) (started c tr) (tk_buf (bn_tasks n c)) (tk_inbox (bn_tasks n c)))
    by (destruct (tk_phase (bn_tasks n c)); [apply Hw|apply Hw|congruence]). clear Hw.
  assert (Hst : forall e ts, event_conn e = c -> e <> ERestart -> exists n', bstart cfg n e ts = Some (n', [IStart e])).
  { intros e ts Hec Hne. unfold bstart. destruct e; try congruence; cbn [mstep]; rewrite Hec, Hi; cbn [is_some]; eauto. }
  assert (Hwhat : forall out b cs, poll_read p (tk_buf (bn_tasks n c)) (tk_inbox (bn_tasks n c)) = (Some out, b, cs) ->
    match out with
    | RPacket k => exists rest, map (fun kb => canon (fst kb)) packets = started c tr ++ k :: rest
    | _ => map (fun kb => canon (fst kb)) packets = started c tr
    end).
  { intros out b cs Ep. apply poll_reads in Ep.
    assert (Hend : forall o', (forall k, o' <> RPacket k) ->
        (exists cs', reads_to p (tk_buf (bn_tasks n c)) (tk_inbox (bn_tasks n c)) [] b cs' /\
         forall more, server_read p b (cs' ++ more) = (o', b, cs ++ more)) -> map (fun kb => canon (fst kb)) packets = started c tr).
    { intros o' H1 (cs' & A & B). pose proof (reads_to_trans _ _ _ _ _ _ _ _ _ Hrd A) as Ht.
      specialize (B []). rewrite app_nil_r in B. pose proof (reads_to_reads _ _ _ _ _ _ Ht [] o' ltac:(eapply sreads_end; eassumption)) as Hx.
      destruct (server_reads_det _ _ _ _ _ Hr _ _ Hx) as [Hy _]. rewrite !app_nil_r in Hy. exact Hy. }
    destruct out as [k| | |]; [|eapply Hend; [|exact Ep]; discriminate..].
    pose proof (reads_to_trans _ _ _ _ _ _ _ _ _ Hrd Ep) as Ht. destruct (reads_to_rest _ _ _ _ _ _ Ht _ _ Hr) as (rest & Hk & _).
    rewrite <- app_assoc in Hk. eauto. }
  destruct (poll_read p (tk_buf (bn_tasks n c)) (tk_inbox (bn_tasks n c))) as [[[out|] b] cs] eqn:Ep.
  - specialize (Hwhat out b cs eq_refl). destruct (tk_phase (bn_tasks n c)); [| |congruence].
    + destruct (Hst (first_event c out u a) (put_task c (Mk_task (goes_on_reading (bn_tasks n c) out) b cs) (bn_tasks n))) as [n' Hn]; [destruct out; reflexivity|destruct out; discriminate|].
      exists n', [IStart (first_event c out u a)]. split; [exact Hn|]. rewrite started_of, handled_first, Nat.eqb_refl. destruct out; eauto.
      right. destruct Hwhat. eauto.
    + destruct (Hst (next_event c out) (put_task c (Mk_task (goes_on_reading (bn_tasks n c) out) b cs) (bn_tasks n))) as [n' Hn]; [destruct out; reflexivity|destruct out; discriminate|].
      exists n', [IStart (next_event c out)]. split; [exact Hn|]. rewrite started_of, handled_next, Nat.eqb_refl. destruct out; eauto.
      right. destruct Hwhat. eauto.
  - clear Hwhat. apply poll_reads in Ep. destruct Ep as (A & -> & x & B). pose proof (reads_to_trans _ _ _ _ _ _ _ _ _ Hrd A) as Ht.
    assert (Hx : server_reads p b [] [] (server_eof b)).
    { eapply sreads_end; [rewrite server_read_step, B; reflexivity|]. destruct b; discriminate. }
    apply (reads_to_reads _ _ _ _ _ _ Ht) in Hx. destruct (server_reads_det _ _ _ _ _ Hr _ _ Hx) as [Hy _]. rewrite !app_nil_r in Hy.
    destruct (tk_phase (bn_tasks n c)); [| |congruence]; (do 2 eexists; split; [reflexivity|]); left; auto.
Qed.
Print Assumptions C112_next_handled.
(** Every connection is a conversation: the first thing handled is the first packet, and everything else is handled while
    the broker has accepted the connection and not closed it. *)
Theorem C112_conversation {st0} cfg p ms tr n c pre e post : bruns cfg p (bnet_on st0) ms tr n -> genuine (net_part ms) ->
  tr = pre ++ IStart e :: post -> event_of c e = true ->
  match e with EFirst _ _ _ _ => events_of c pre = [] | _ => opened c pre end.
Proof.
  intros H Hg E He. destruct (bruns_at _ _ _ _ _ _ H _ _ _ E) as (m1 & m & m2 & n1 & n2 & Em & H1 & Hs & _).
  destruct (start_phase _ _ _ _ _ _ _ Hs He) as [Hi Hph]. pose proof (bwell_on _ _ _ _ _ _ c H1) as Hw. unfold bwell in Hw.
  assert (Ho : is_served (cn_world (bn_conf n1)) c = true -> opened c pre).
  { intros Hsv. apply (open_conns cfg c pre (bn_conf n1) (bruns_conf _ _ _ _ _ _ H1)); [|exact Hi|].
    - eapply (event_texts c pre (IStart e) post). rewrite <- E. eapply bruns_texts; eassumption.
    - unfold is_served in Hsv. destruct (aget Nat.eqb c _); [eauto|discriminate]. }
  destruct e; cbn in Hph; rewrite Hph in Hw; try (apply Ho, Hw, Hi). apply Hw, Hi.
Qed.
Print Assumptions C112_conversation.
(** So every packet is answered by its handler, in order, whatever the others do. *)
Theorem C112_answered {st0} cfg p ms tr n c : bruns cfg p (bnet_on st0) ms tr n -> genuine (net_part ms) -> idle c (bn_conf n) ->
  answered cfg c false (events_of c tr) (outputs_of c tr).
Proof.
  intros H Hg Hi. eapply C87_answered_in_order; [apply (bruns_conf _ _ _ _ _ _ H)|exact Hi|]. eapply bruns_texts; eassumption.
Qed.
Print Assumptions C112_answered.
(** From the bytes of a publisher to the queues of the subscribers: if the [k]-th packet whose bytes arrive on a connection is a
    valid PUBLISH and the broker has handled it, its message was put exactly once into the queue of each matching filter that was
    granted before, and into no other. *)
Theorem C112_published {st0} cfg p ms tr n c packets k b bs f : bruns cfg p (bnet_on st0) ms tr n -> genuine (net_part ms) ->
  Forall (fun kb => sent (fst kb) (snd kb) /\ reads V5 (fst kb)) packets ->
  Forall (fun x => x <> []) (arrived c (net_part ms)) -> concat (arrived c (net_part ms)) = concat (map snd packets) ->
  idle c (bn_conf n) -> nth_error packets k = Some (Publish b, bs) -> (0 < k < length (started c tr))%nat -> topic_name (pb_topic b) -> topic_filter f ->
  exists q m pre mid post, canon (Publish b) = Publish q /\ SpecConc.handled c (EPacket c (Publish q)) pre mid post tr /\ length (started c pre) = k
    /\ carries q m
    /\ (matches f (pb_topic b) -> granted f pre -> routed_by c f mid = [m])
    /\ (~ matches f (pb_topic b) -> routed_by c f mid = []).
Proof.
  intros H Hg Hs Hc E Hi Hk Hlt Ht Hf. destruct (C112_sent_handled _ _ _ _ _ _ _ H Hs Hc E) as [rest Hr].
  assert (Hn : nth_error (started c tr) k = Some (canon (Publish b))).
  { rewrite <- (nth_error_app1 (started c tr) rest) by lia. rewrite <- Hr, nth_error_map, Hk. reflexivity. }
  destruct (started_at c tr _ _ Hn) as (pre & e & post & Etr & He & Hpre & Hek).
  pose proof (C112_conversation _ _ _ _ _ _ _ _ _ H Hg Etr He) as Hcv.
  assert (Hpl : length (started c pre) = k) by (rewrite Hpre; apply firstn_length_le; lia).
  destruct Hek as [->|(u & a & ->)].
  - cbn [canon] in *. eexists.
    pose proof (bruns_conf _ _ _ _ _ _ H) as Hx. rewrite Etr in Hx. apply start_at in Hx. destruct Hx as (y & _ & _ & _ & Hx).
    apply (has_ended _ _ _ _ c) in Hx; [|unfold idle; cbn [cn_tasks event_conn]; rewrite (aget_put_same _ nateqb_spec); discriminate|exact Hi].
    destruct Hx as (mid & post' & -> & Hm).
    match type of Etr with _ = _ ++ IStart (EPacket c (Publish ?q)) :: _ => set (Q := q) in * end.
    assert (Hh : SpecConc.handled c (EPacket c (Publish Q)) pre mid post' tr) by (split; [exact Etr|split; [exact He|exact Hm]]).
    assert (Hv : valid_publish Q).
    { split; [exact Ht|]. cbn. rewrite Forall_forall in Hs. destruct (Hs _ (nth_error_In _ _ Hk)) as [(_ & _ & Hwf & _) _].
      cbn in Hwf. destruct Hwf as (W1 & _ & W2 & _). destruct (pb_qos b); [left; reflexivity|right; split; [discriminate|]..|congruence];
        destruct (pb_packet_id b); [discriminate|destruct W2|discriminate|destruct W2]. }
    destruct (C88_once_to_every_match cfg c Q pre mid post' tr (bn_conf n) f (bruns_conf _ _ _ _ _ _ H) (bruns_texts _ _ _ _ _ _ H Hg) Hh Hcv Hv Hf) as (m & C1 & C2 & C3 & _).
    exists m, pre, mid, post'. split; [reflexivity|]. split; [exact Hh|]. split; [exact Hpl|]. auto.
  - exfalso. cbn in Hcv. assert (Hz : started c pre = []); [|rewrite Hz in Hpl; cbn in Hpl; lia].
    clear - Hcv. induction pre as [|i pre IH]; [reflexivity|]. rewrite started_cons. change (i :: pre) with ([i] ++ pre) in Hcv. rewrite events_app in Hcv.
    apply app_eq_nil in Hcv. destruct Hcv as [A B]. rewrite (IH B), app_nil_r. destruct i as [e|d o|d]; [|reflexivity..]. apply started_other.
    unfold events_of in A. cbn in A. destruct (event_of c e); [discriminate|reflexivity].
Qed.
Print Assumptions C112_published.
(** Only its own bytes can make the decoder panic in the task of a connection, and nothing of it is handled any more. *)
Theorem C112_panic_own_bytes {st0} cfg p ms tr n c : bruns cfg p (bnet_on st0) ms tr n -> In (IStart (EPanic c)) tr ->
  server_reads p [] (arrived c (net_part ms)) (started c tr) RPanic.
Proof.
  intros H Hin. apply in_split in Hin. destruct Hin as (pre & post & E).
  destruct (bruns_at _ _ _ _ _ _ H _ _ _ E) as (m1 & m & m2 & n1 & n2 & -> & H1 & Hs & H2).
  assert (He : event_of c (EPanic c) = true) by apply Nat.eqb_refl. destruct (start_phase _ _ _ _ _ _ c Hs He) as [_ Hph].
  pose proof (bwell_on _ _ _ _ _ _ c H1) as Hw. unfold bwell in Hw. cbn in Hph. rewrite Hph in Hw. destruct Hw as [Hw _].
  destruct (panic_start _ _ _ _ _ _ Hs) as (Ho & _ & Ha & b & cs & Ep). destruct (over_stays_runs _ _ _ _ _ _ c H2 Ho) as [_ Hz].
  apply poll_reads in Ep. destruct Ep as (cs' & A & B).
  replace (started c tr) with (started c pre ++ [] ++ []).
  2:{ rewrite E, started_app, started_cons, Hz. reflexivity. }
  rewrite app_assoc. eapply (reads_to_reads p [] _ _ b (cs' ++ arrived c (net_part m2))).
  - eapply reads_to_trans.
    + change (m :: m2) with ([m] ++ m2). rewrite !net_part_app, !arrived_app, Ha. cbn [app]. apply reads_to_app, Hw.
    + apply reads_to_app, A.
  - eapply sreads_end; [apply B|discriminate].
Qed.
Print Assumptions C112_panic_own_bytes.
(** The histories of C105, in which handlers run one after the other, are among these runs. *)
Theorem C112_sequential cfg p h : ~ In NRestart h ->
  exists ms tr n, bruns cfg p (bnet_on mem_new) ms tr n /\ bn_conf n = Mk_conf (nt_world (net_state cfg p h)) [] [] [] /\
    (forall c, arrived c (net_part ms) = arrived c h) /\ all_outputs tr = net_outputs cfg p h /\ all_events tr = nhistory cfg p h network_new.
Proof. intros H. destruct (network_lifts cfg p h H) as (ms & tr & n & A & B & _ & C & D & E). exists ms, tr, n. auto. Qed.
Print Assumptions C112_sequential.

(** The given moves, as far as possible; the moves that were made. *)
Fixpoint bexec (cfg : config) (p : profile) (ms : list bmove) (n : bnet) : bnet * list bmove * list item :=
  match ms with
  | [] => (n, [], [])
  | m :: ms =>
      match bstep cfg p n m with
      | None => bexec cfg p ms n
      | Some (n1, is) => let '(n2, ms', tr) := bexec cfg p ms n1 in (n2, m :: ms', is ++ tr)
      end
  end.
Lemma bexec_runs cfg p ms : forall n, bruns cfg p n (snd (fst (bexec cfg p ms n))) (snd (bexec cfg p ms n)) (fst (fst (bexec cfg p ms n))).
Proof.
  induction ms as [|m ms IH]; intros n; cbn [bexec]; [constructor|]. destruct (bstep cfg p n m) as [[n1 is]|] eqn:E; [|apply IH].
  specialize (IH n1). destruct (bexec cfg p ms n1) as [[n2 ms'] tr]. econstructor; eassumption.
Qed.
Definition brounds (n : nat) (cs : list nat) : list bmove := concat (repeat (map BGo cs) n).
Definition bpolls (cs : list nat) : list bmove := map (fun c => BNet (NPoll c (str "u") true)) cs.
(** A subscriber and a publisher: their bytes arrive in pieces, and their handlers run at the same time. *)
Definition ex_s : list packet := [Connect (ex_connect "a" true); ex_wish].
Definition ex_p : list packet := [Connect (ex_connect "b" true); Publish (ex_publish AtLeastOnce (Some 3) false "gone" "x")].
Definition ex_bytes (ks : list packet) : bytes := concat (map enc ks).
Definition ex_net : list bmove :=
  [BNet (NArrive 1 (firstn 20 (ex_bytes ex_s))); BNet (NArrive 2 (firstn 3 (ex_bytes ex_p)))] ++ bpolls [1; 2]%nat ++
  [BNet (NArrive 2 (skipn 3 (ex_bytes ex_p)))] ++ bpolls [1; 2]%nat ++ brounds 40 [1; 2]%nat ++
  [BNet (NArrive 1 (skipn 20 (ex_bytes ex_s)))] ++ bpolls [1]%nat ++ brounds 40 [1]%nat ++ bpolls [1; 2]%nat ++ brounds 40 [2; 1]%nat.
Definition ex_done : list bmove := snd (fst (bexec ex_open Base.Release ex_net (bnet_on mem_new))).
Definition ex_btrace : list item := snd (bexec ex_open Base.Release ex_net (bnet_on mem_new)).
Definition ex_end : bnet := fst (fst (bexec ex_open Base.Release ex_net (bnet_on mem_new))).
Example C112_ex : bruns ex_open Base.Release (bnet_on mem_new) ex_done ex_btrace ex_end /\ genuine (net_part ex_done) /\
  Forall (fun x => x <> []) (arrived 2 (net_part ex_done)) /\ concat (arrived 2 (net_part ex_done)) = ex_bytes ex_p /\
  started 1 ex_btrace = map canon ex_s /\ started 2 ex_btrace = map canon ex_p /\ reading 1 ex_end /\ reading 2 ex_end /\
  topic_name (str "gone") /\ topic_filter (str "gone") /\ granted (str "gone") (part1 2 1 ex_btrace) /\
  length (routed_by 2 (str "gone") (part2 2 1 ex_btrace)) = 1%nat.
Proof.
  split; [apply bexec_runs|]. split; [apply genuine_by; vm_compute; reflexivity|].
  split; [apply Forall_forall; intros x Hx Hn; subst; vm_compute in Hx; intuition discriminate|].
  split; [vm_compute; reflexivity|]. split; [vm_compute; reflexivity|]. split; [vm_compute; reflexivity|].
  split; [split; [vm_compute; reflexivity|vm_compute; discriminate]|]. split; [split; [vm_compute; reflexivity|vm_compute; discriminate]|].
  split; [apply publish_topic_iff; [apply utf8_valid_iff|]; vm_compute; reflexivity|].
  split; [apply subscribe_filter_iff; [apply utf8_valid_iff|]; vm_compute; reflexivity|].
  split; [|vm_compute; reflexivity].
  destruct (canon ex_wish) eqn:E; try discriminate. injection E as <-.
  eapply (ex_granted 1 1 (str "gone")); [|vm_compute; reflexivity| |vm_compute; reflexivity|vm_compute; reflexivity].
  - vm_compute. reflexivity.
  - vm_compute. auto.
Qed.
