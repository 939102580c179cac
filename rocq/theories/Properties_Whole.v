(** Property C114: from publish() in one program to recv() in another, over bytes in any pieces, with the handlers of all
    connections interleaved in any way, after any number of stops and starts of the broker.
    Every theorem is followed by a concrete case meeting its hypotheses. *)
From Coq Require Import String.
From Verif Require Import Base Utf8 Codec Str SpecCodec Property SpecProperty PacketProps Packets SpecPackets Frame Tac Maps CodecFacts
  ParseFacts FrameFacts Topic SpecTopic TopicFacts TopicTree Storage Broker SpecBroker BrokerFacts Auth Session Server SpecServer ServerFacts SpecOutput OutputFacts
  Client SpecClient ClientFacts Network SpecNetwork NetworkFacts
  Conc SpecConc ConcFacts ConcLocks ConcRoute ConcOwn ConcProv SpecLives ConcLives ConcNet SpecConcNet ConcNetFacts SpecConcOutput ConcOutput ConcWhole
  Examples Properties_Wire Properties_Routing Properties_Client Properties_EndToEnd Properties_ClientWire Properties_Network Properties_Bytes Properties_Conc Properties_ConcNet Properties_ConcOutput.
Local Open Scope list_scope.

(** The broker, fed on connection [c] with the first bytes that a library has written, in any pieces and at any times, while other
    connections are served: it has started to handle the first of the packets written, in order, each once, as they were written. *)
Theorem C114_calls_handled {st} cfg p ms tr n c o is ca outs : bruns cfg p (bnet_on st) ms tr n ->
  options_fit o -> cruns client_new is ca outs -> Forall fair is -> ~ In PingReq (written outs) ->
  Forall (fun x => x <> []) (arrived c (net_part ms)) -> begins (concat (arrived c (net_part ms))) (library_writes o outs) ->
  exists more, map canon (library_writes o outs) = started c tr ++ more.
Proof.
  intros H Ho Hr Hf Hp Hc [rest E]. pose proof (library_crosses o is ca outs Ho Hr Hf Hp) as Hx. rewrite <- paired_bytes in E.
  destruct (partly_read p _ _ _ Hx Hc E) as (m & out & Hs & _ & _). destruct (bruns_reads _ _ _ _ _ _ c H) as (b & cs & Hb).
  destruct (reads_to_rest _ _ _ _ _ _ Hb _ _ Hs) as (more & Hm & _). rewrite firstn_map, paired_canon in Hm.
  exists (more ++ map canon (skipn m (library_writes o outs))). rewrite app_assoc, <- Hm, <- map_app, firstn_skipn. reflexivity.
Qed.
Print Assumptions C114_calls_handled.
(** So the PUBLISH packets handled are the first calls of publish(), with their arguments. *)
Lemma fair_calls is : Forall fair is -> Forall call_fits (publish_calls is).
Proof.
  intros Hf. apply Forall_forall. intros [[[t d] q] r] Hin. apply in_flat_map in Hin. destruct Hin as (i & Hi & Hin). rewrite Forall_forall in Hf. specialize (Hf _ Hi).
  destruct i as [|[] ok| | |]; cbn in Hin; try tauto. destruct Hin as [E|[]]. inv E. cbn in Hf. unfold call_fits. tauto.
Qed.
Lemma handled_asks {st} cfg p ms tr n c o is ca outs : bruns cfg p (bnet_on st) ms tr n ->
  options_fit o -> cruns client_new is ca outs -> Forall fair is -> healthy is -> cl_alive ca = true -> ~ In PingReq (written outs) ->
  Forall (fun x => x <> []) (arrived c (net_part ms)) -> begins (concat (arrived c (net_part ms))) (library_writes o outs) ->
  Forall2 (fun x y => exists z, asks x z /\ same_content z y) (firstn (length (publishes (started c tr))) (publish_calls is)) (publishes (started c tr)).
Proof.
  intros H Ho Hr Hf Hh Ha Hp Hc Hb. destruct (C114_calls_handled cfg p ms tr n c o is ca outs H Ho Hr Hf Hp Hc Hb) as [more Hm].
  pose proof (fair_calls _ Hf) as Hcf. pose proof (calls_written is ca outs Hr Hh Ha Hcf) as Hw.
  apply (f_equal publishes) in Hm. rewrite publishes_canon, publishes_app in Hm. change (publishes (library_writes o outs)) with (publishes_written outs) in Hm.
  eapply (asks_conveyed _ _ (length (publishes (started c tr)))); [exact Hw|].
  assert (E : map canon_publish (firstn (length (publishes (started c tr))) (publishes_written outs)) = publishes (started c tr)).
  { rewrite <- firstn_map, Hm, firstn_app, firstn_all, Nat.sub_diag. cbn. apply app_nil_r. }
  rewrite <- E at 2. clear. induction (firstn _ _) as [|b l IH]; [constructor|]. cbn [map]. constructor; [|exact IH].
  unfold canon_publish. cbn [canon]. repeat split. cbn. destruct (pb_payload b); reflexivity.
Qed.
Theorem C114_publish_calls_handled {st} cfg p ms tr n c o is ca outs : bruns cfg p (bnet_on st) ms tr n ->
  options_fit o -> cruns client_new is ca outs -> Forall fair is -> healthy is -> cl_alive ca = true -> ~ In PingReq (written outs) ->
  Forall (fun x => x <> []) (arrived c (net_part ms)) -> begins (concat (arrived c (net_part ms))) (library_writes o outs) ->
  Forall2 same_request (firstn (length (publishes (started c tr))) (publish_calls is)) (publishes (started c tr)).
Proof.
  intros H Ho Hr Hf Hh Ha Hp Hc Hb. pose proof (handled_asks _ _ _ _ _ _ _ _ _ _ H Ho Hr Hf Hh Ha Hp Hc Hb) as Hx. revert Hx.
  generalize (firstn (length (publishes (started c tr))) (publish_calls is)), (publishes (started c tr)). intros l1 l2 Hx.
  induction Hx as [|[[[t d] q] r] y m1 m2 Hy Hx IH]; constructor; [|exact IH]. destruct Hy as (z & (id & -> & _) & (H1 & H2 & H3 & H4 & H5)).
  cbn [pb_topic pb_qos pb_retain pb_dup pb_payload] in *. repeat split; auto.
Qed.
Print Assumptions C114_publish_calls_handled.

(** ** The subscriber *)
Lemma written_app_to c a b : written_to c (a ++ b) = written_to c a ++ written_to c b.
Proof. apply flat_map_app. Qed.
Lemma written_sent c tr : (forall d k, In (IStep c (OOut (Sent d k))) tr -> d = c) -> written_to c tr = packets_sent c (outputs_of c tr).
Proof.
  induction tr as [|i tr IH]; intros H; [reflexivity|]. change (i :: tr) with ([i] ++ tr). rewrite written_app_to, outputs_app, packets_sent_app, <- IH.
  2:{ intros d k Hin. eapply H. right. exact Hin. }
  f_equal. destruct i as [e|d o|d]; try reflexivity. unfold written_to, outputs_of. cbn [flat_map]. destruct o as [[d' k'| |]| | | | | | | | | | | | |]; try reflexivity;
    destruct (Nat.eqb_spec d c) as [->|]; try reflexivity. rewrite (H d' k' (or_introl eq_refl)). cbn. rewrite Nat.eqb_refl. reflexivity.
Qed.
Lemma told_prefix f (D : list publish_packet) l Y k : Forall2 (sent_as f) D l -> Forall2 same_content (firstn k D) Y ->
  map message_of Y = firstn (length Y) (map (as_told f) l).
Proof.
  intros H. revert k Y. induction H as [|d m D l Hd H IH]; intros k Y Hy.
  - rewrite firstn_nil in Hy. inversion Hy. reflexivity.
  - destruct k as [|k]; [inversion Hy; reflexivity|]. cbn [firstn] in Hy. inversion Hy as [|? y ? Y' Hxy Hy']; subst. cbn [map length firstn]. f_equal; [|eapply IH, Hy'].
    destruct Hxy as (H1 & H2 & H3 & _ & H5), Hd as (S1 & S2 & S3 & _ & _ & S6). unfold message_of, as_told. rewrite H1, H2, H3, H5, S1, S2, S3, S6. reflexivity.
Qed.
Lemma subseq_trans {T} (b c : list T) : subseq b c -> forall a, subseq a b -> subseq a c.
Proof.
  induction 1 as [|x b c H IH|x b c H IH]; intros a Ha; [exact Ha| |constructor; auto].
  inversion Ha as [|? a' ? Ha'|? ? ? Ha']; subst; constructor; auto.
Qed.
Lemma f2_len {A B} (P : A -> B -> Prop) a b : Forall2 P a b -> length a = length b.
Proof. induction 1; cbn; congruence. Qed.
Lemma subseq_firstn {T} n (l : list T) : subseq (firstn n l) l.
Proof. eapply subseq_prefix_weaken with (n := n). apply subseq_refl. Qed.
Lemma canon_same b : same_content b (canon_publish b).
Proof. unfold canon_publish. cbn [canon]. repeat split. cbn. destruct (pb_payload b); reflexivity. Qed.

(** One client publishes, another has subscribed. The bytes of all clients arrive in any pieces, the readers and the handlers of all connections are
    interleaved in any way, and the broker may have been stopped and started before. What the subscriber's application is told for its filter [f]
    comes, in order and each once, out of what the broker had retained for the filter and what it has routed to it since; nothing is left out if
    never more than 16 messages wait. Everything that the publisher gave to publish() on a matching topic since then, and that the broker has
    handled, is among it, in order; and all of it was sent by a client that the broker had let in. Missing: the application is told the filter
    instead of the topic (C72_topic_refuted), QoS 2, pings of the publisher (C106_after_ping_refuted), reads that end inside a packet (C17), and packets to the
    subscriber that no client can read (C97: the will with a QoS). *)
Theorem C114_publish_to_recv_partial cfg p pc trs st ms tr n c sp f pre mid post a t oa isa ca outsa isb cb outsb hello groups later unread out :
  lives cfg trs st -> Forall over_network trs -> bruns cfg p (bnet_on st) ms tr n -> genuine (net_part ms) ->
  (* the subscription *)
  SpecConc.handled c (EPacket c (Subscribe sp)) pre mid post tr -> In f (map fst (sb_payload sp)) -> topic_filter f ->
  lone c tr -> keeps_subscription c f post ->
  (* the publisher: the broker has got the first bytes that its library has written, in any pieces *)
  options_fit oa -> cruns client_new isa ca outsa -> Forall fair isa -> healthy isa -> cl_alive ca = true -> ~ In PingReq (written outsa) ->
  Forall (fun y => y <> []) (arrived a (net_part ms)) -> begins (concat (arrived a (net_part ms))) (library_writes oa outsa) -> idle a (bn_conf n) ->
  topic_name t -> matches f t ->
  (* the subscriber: its library has got the first packets that the broker has written, one or more at a time *)
  one_version c V5 tr -> cruns client_new isb cb outsb -> healthy isb -> ~ In IDrop isb ->
  written_to c tr = ConnAck hello :: concat groups ++ later -> Forall (fun g => g <> []) groups ->
  Forall (fun k => ~ exceptional V5 k /\ blen (bytes_of k) <= max_frame) (concat groups) ->
  client_reads pc V5 [] (map (fun g => concat (map bytes_of g)) groups) (packets_read isb ++ unread) out ->
  exists ret n0 mid1 mid2, mid = mid1 ++ IStep c (OSub f n0) :: mid2 /\ In (IStep c (OStore (GetRetained f) (RMessages ret))) mid2 /\
  let before := pre ++ IStart (EPacket c (Subscribe sp)) :: mid ++ [IEnd c] in
  let na := length (publishes (started a before)) in
  let nb := length (publishes (written_to c before)) in
  let published := skipn na (firstn (length (publishes (started a tr))) (publish_calls isa)) in
  let heard := filter (told_on f) (skipn nb (messages (told cb outsb))) in
  let all := ret ++ routed f (mid2 ++ post) in
  let due := map (as_told f) all in
  subseq heard due
  /\ (keeping_up c f ret (routed f mid2) post -> heard = firstn (length heard) due)
  /\ subseq (map (call_told f) (filter (call_on t) published)) due
  /\ Forall (sent_in cfg (trs ++ [tr])) all.
Proof.
  intros Hl Hln H Hg Hh Hin Hf Hlone Hkeep Ho Ra Hfa Hha Haa Hpa Hca Hba Hia Ht Hm Hv Rb Hhb Hdb Esent Hne Hx Hreads.
  destruct (C112_schedules _ _ _ _ _ H Hg) as (Hr & Hnet & Htexts). change (over_network tr) in Hnet. pose proof Hh as (Etr & Hev & Hmid).
  pose proof (C112_conversation _ _ _ _ _ _ _ _ _ H Hg Etr Hev) as Hop. cbn in Hop.
  destruct (C89_delivered_from_suback_on _ _ _ _ _ _ _ _ _ Hr (Htexts c) Hh Hop Hin Hf Hlone Hkeep) as (ret & n0 & mid1 & mid2 & Emid & Hret & Hd).
  exists ret, n0, mid1, mid2. split; [exact Emid|]. split; [exact Hret|]. intros before na nb published heard all due. cbv zeta in Hd. fold all in Hd.
  assert (Eb : tr = before ++ post) by (rewrite Etr; unfold before; rewrite <- app_assoc; cbn [app]; rewrite <- app_assoc; reflexivity).
  assert (Hall : Forall (sent_in cfg (trs ++ [tr])) all).
  { unfold all. apply Forall_app. split.
    - eapply found_msg; [exact Hl|exact Hr|exact Hnet|]. rewrite Etr, Emid. apply in_or_app. right. right. apply in_or_app. left. apply in_or_app. right. right. exact Hret.
    - pose proof (routed_msg _ _ _ _ _ f Hl Hr Hnet) as Hx1. rewrite Forall_forall in *. intros m Hi. apply Hx1. rewrite Etr, Emid. rewrite routed_app in *.
      apply in_or_app. right. change (IStart (EPacket c (Subscribe sp)) :: (mid1 ++ IStep c (OSub f n0) :: mid2) ++ IEnd c :: post) with
        ([IStart (EPacket c (Subscribe sp))] ++ (mid1 ++ [IStep c (OSub f n0)] ++ mid2) ++ [IEnd c] ++ post). rewrite !routed_app. apply in_app_or in Hi.
      apply in_or_app. right. destruct Hi as [Hi|Hi]; [apply in_or_app; left; apply in_or_app; right; apply in_or_app; right; exact Hi|].
      apply in_or_app. right. apply in_or_app. right. exact Hi. }
  assert (Hq : Forall (fun m => mg_qos m <> QInvalid) all).
  { revert Hall. apply Forall_impl. intros m. apply sent_in_qos. apply Forall_app. split; [exact Hln|]. constructor; [exact Hnet|constructor]. }
  specialize (Hd Hq). destruct Hd as [(l & Hls & Hl2) Hd].
  (* what the subscriber has read *)
  assert (Hgr : client_reads pc V5 [] (map (fun g => concat (map bytes_of g)) groups) (map canon (concat groups)) RClosed).
  { pose proof (C17_client_framing_partial pc V5 (map (map (fun k => (k, bytes_of k))) groups)) as Hc17.
    rewrite <- concat_map, map_map, map_map in Hc17. cbn [fst] in Hc17.
    rewrite (map_ext _ (fun g => concat (map bytes_of g))) in Hc17 by (intros g; rewrite paired_bytes; reflexivity). apply Hc17.
    - apply Forall_map. cbn [fst snd]. rewrite Forall_forall in *. intros k Hk. destruct (Hx k Hk) as [H1 H2]. apply proper_read; auto.
      assert (Hw : In k (written_to c tr)) by (rewrite Esent; right; apply in_or_app; auto). apply written_in in Hw. destruct Hw as (d & Hw).
      refine (proj2 (fed_proper _ _ _ _ _ _ _ _ _ _ _ Hl _ H Hg Hv Hw)). apply Forall_forall. exact Hln.
    - apply Forall_map. revert Hne. apply Forall_impl. intros [|k g] Hn; [congruence|discriminate]. }
  destruct (client_reads_det _ _ _ _ _ _ Hreads _ _ Hgr) as [Er _].
  apply (f_equal publishes) in Er. rewrite publishes_app, publishes_canon in Er.
  assert (Eps : publishes (concat groups) ++ publishes later = publishes (written_to c before) ++ publishes_sent c (outputs_of c post)).
  { rewrite publishes_sent_packets, <- written_sent.
    - rewrite <- (publishes_app (written_to c before)), <- written_app_to, <- Eb, Esent.
      change (ConnAck hello :: concat groups ++ later) with ([ConnAck hello] ++ concat groups ++ later). rewrite !publishes_app. reflexivity.
    - intros d k Hi. apply (fed_proper _ _ _ _ _ _ _ c d k V5 Hl Hln H Hg Hv). rewrite Eb. apply in_or_app. auto. }
  set (X := publishes_sent c (outputs_of c post)) in *.
  assert (Hys : Forall2 same_content (firstn (length (skipn nb (publishes (packets_read isb)))) X) (skipn nb (publishes (packets_read isb)))).
  { apply (f_equal (map canon_publish)) in Eps. rewrite !map_app, <- Er in Eps. apply (f_equal (skipn nb)) in Eps.
    rewrite <- app_assoc, skipn_app in Eps. set (Y := skipn nb (publishes (packets_read isb))) in *.
    assert (Hsk : skipn nb (map canon_publish (publishes (written_to c before)) ++ map canon_publish X) = map canon_publish X).
    { rewrite skipn_app, map_length. fold nb. rewrite Nat.sub_diag, skipn_all2 by (rewrite map_length; apply le_n). reflexivity. }
    rewrite Hsk in Eps. assert (E2 : map canon_publish (firstn (length Y) X) = Y).
    { rewrite <- firstn_map, <- Eps, firstn_app, firstn_all, Nat.sub_diag. cbn. apply app_nil_r. }
    rewrite <- E2 at 2. clear. induction (firstn (length Y) X) as [|b l IH]; constructor; [apply canon_same|exact IH]. }
  destruct (C59_qos1_acknowledged_partial isb cb outsb Rb Hdb Hhb) as [Hmsg _].
  set (ys := skipn nb (publishes (packets_read isb))) in *.
  assert (Eheard : heard = map message_of (filter (fun q => bytes_eqb (pb_topic q) f) ys)).
  { unfold heard. rewrite Hmsg, publishes_read_packets, skipn_map. fold ys. clear. induction ys as [|y ys IH]; [reflexivity|]. cbn [map filter].
    change (told_on f (message_of y)) with (bytes_eqb (pb_topic y) f). destruct (bytes_eqb (pb_topic y) f); cbn [map]; rewrite IH; reflexivity. }
  destruct (filter_firstn (fun q => bytes_eqb (pb_topic q) f) (length ys) X) as (k & Hk1 & _).
  assert (Hy : Forall2 same_content (firstn k (deliveries c f (outputs_of c post))) (filter (fun q => bytes_eqb (pb_topic q) f) ys)).
  { rewrite deliveries_filter. fold X. rewrite <- Hk1. clear -Hys. induction Hys as [|x y l l' Hxy H IH]; [constructor|]. cbn [filter].
    rewrite (proj1 Hxy). destruct (bytes_eqb (pb_topic x) f); [constructor; auto|auto]. }
  set (D := deliveries c f (outputs_of c post)) in *.
  assert (Hlen : length heard = length (filter (fun q => bytes_eqb (pb_topic q) f) ys)) by (rewrite Eheard; apply map_length).
  split; [|split; [|split; [|exact Hall]]].
  - rewrite Eheard, (told_prefix _ _ _ _ _ Hl2 Hy). eapply subseq_trans; [|apply subseq_firstn]. apply subseq_map, Hls.
  - intros Hup. destruct (Hd Hup) as [Hd1 _]. rewrite Hlen, Eheard, (told_prefix _ _ _ _ _ Hd1 Hy) at 1. rewrite <- firstn_map, firstn_firstn. f_equal.
    apply Nat.min_l. apply f2_len in Hy. rewrite firstn_length in Hy. rewrite <- Hy. apply Nat.le_min_r.
  - unfold due, all. rewrite map_app. apply subseq_app_front. rewrite routed_app, map_app. apply subseq_app_front.
    assert (Ecalls : map (call_told f) (filter (call_on t) published) = map (as_told f) (map Session.message_of (filter (on_topic t) (pubs (started a post))))).
    { pose proof (handled_asks _ _ _ _ _ _ _ _ _ _ H Ho Ra Hfa Hha Haa Hpa Hca Hba) as Hasks. apply (Forall2_skipn _ na) in Hasks. apply (calls_told f t) in Hasks.
      unfold published. rewrite Hasks. rewrite Eb at 1. rewrite started_app, publishes_app, skipn_app. fold na. rewrite Nat.sub_diag, skipn_all2 by apply le_n. reflexivity. }
    rewrite Ecalls. apply subseq_map. eapply subseq_trans; [apply (routed_by_sub a)|].
    assert (Hfirst : forall b u y, ~ In (IStart (EFirst a (Some (Publish b)) u y)) tr).
    { intros b u y Hi. apply in_split in Hi. destruct Hi as (p1 & p2 & E1). pose proof (C112_conversation _ _ _ _ _ a _ _ _ H Hg E1 (Nat.eqb_refl a)) as Hc. cbn in Hc.
      destruct (C114_calls_handled _ _ _ _ _ _ _ _ _ _ H Ho Ra Hfa Hpa Hca Hba) as [more Hmore].
      assert (Hz : started a p1 = []).
      { clear -Hc. induction p1 as [|i p1 IH]; [reflexivity|]. rewrite started_cons. change (i :: p1) with ([i] ++ p1) in Hc. rewrite events_app in Hc.
        apply app_eq_nil in Hc. destruct Hc as [A B]. rewrite (IH B), app_nil_r. destruct i as [e|d o|d]; [|reflexivity..]. apply started_other.
        unfold events_of in A. cbn in A. destruct (event_of a e); [discriminate|reflexivity]. }
      rewrite E1, started_app, Hz, started_cons in Hmore. cbn in Hmore. rewrite Nat.eqb_refl in Hmore. discriminate. }
    eapply (published_routed cfg tr (bn_conf n) a f t Hr Hnet Hia); [|exact Hfirst|exact Ht|exact Hm|apply le_n|exact Eb|].
    + intros p1 e p2 E1 He. pose proof (C112_conversation _ _ _ _ _ a _ _ _ H Hg E1 He) as Hc. destruct e; auto.
    + exists c, n0. unfold before. apply in_or_app. right. right. apply in_or_app. left. rewrite Emid. apply in_or_app. right. left. reflexivity.
Qed.
Print Assumptions C114_publish_to_recv_partial.

(** A concrete case. In an earlier life of the broker a client has published a retained message on x/r. In this life client "b" subscribes
    to x/+ on connection 1 while the bytes of the library of client "a" (C106) come on connection 2 in pieces of five; the handlers take turns. *)
Definition wx_life1 : list bmove :=
  [BNet (NArrive 1 (ex_bytes [Connect (ex_connect "z" true); Publish (Examples.ex_publish AtLeastOnce (Some 3) true "x/r" "r")]))] ++
  bpolls [1]%nat ++ brounds 40 [1]%nat ++ bpolls [1]%nat ++ brounds 40 [1]%nat.
Definition wx_end1 : bnet := fst (fst (bexec ex_open Base.Release wx_life1 (bnet_on mem_new))).
Definition wx_trace1 : list item := snd (bexec ex_open Base.Release wx_life1 (bnet_on mem_new)).
Definition wx_store := w_store (cn_world (bn_conf wx_end1)).
Definition wx_piece (l : list bytes) : list bmove := flat_map (fun x => BNet (NArrive 2 x) :: bpolls [2; 1]%nat ++ brounds 3 [2; 1]%nat) l.
Definition wx_moves : list bmove :=
  [BNet (NArrive 1 (bytes_of (Connect (ex_connect "b" true)) ++ bytes_of (Subscribe bx_sub)))] ++ bpolls [1]%nat ++
  wx_piece (firstn 4 (in_fives 100 bx_stream)) ++ brounds 40 [1; 2]%nat ++ bpolls [1]%nat ++ wx_piece (firstn 3 (skipn 4 (in_fives 100 bx_stream))) ++
  brounds 40 [2; 1]%nat ++ bpolls [2]%nat ++ wx_piece (firstn 1 (skipn 7 (in_fives 100 bx_stream))) ++ brounds 40 [1; 2]%nat ++
  concat (repeat (BNet (NOut 1 (str "x/+")) :: bpolls [2]%nat ++ brounds 40 [1; 2]%nat) 4).
Definition wx_run := bexec ex_open Base.Release wx_moves (bnet_on wx_store).
Definition wx_done : list bmove := snd (fst wx_run).
Definition wx_trace : list item := snd wx_run.
Definition wx_end : bnet := fst (fst wx_run).
Definition wx_groups : list (list packet) :=
  [[bx_suback; Publish (Mk_publish_packet false AtLeastOnce false (str "x/+") (Some 3) None (Some (str "r")))];
   [Publish (Mk_publish_packet false AtLeastOnce false (str "x/+") (Some 1) None (Some (str "v")));
    Publish (Mk_publish_packet false AtMostOnce false (str "x/+") None None (Some (str "w")))]].
Definition wx_reads : list cinput := map (fun k => IRead (RPacket (canon k)) true) (concat wx_groups).
Definition wx_told : list coutput := match crun client_new wx_reads with Some (_, outs) => outs | None => [] end.
Lemma wx_lives : lives ex_open [wx_trace1] wx_store /\ Forall over_network [wx_trace1].
Proof.
  assert (Hg : genuine (net_part (snd (fst (bexec ex_open Base.Release wx_life1 (bnet_on mem_new)))))) by (apply genuine_by; vm_compute; reflexivity).
  destruct (C112_schedules _ _ _ _ _ (bexec_runs ex_open Base.Release wx_life1 (bnet_on mem_new)) Hg) as (Hr & Hn & _).
  split; [exact (lv_more _ [] _ _ _ (lv_none _) Hr (network_texts _ Hn))|]. apply Forall_cons; [exact Hn|apply Forall_nil].
Qed.
Example C114_publisher_ex : bruns ex_open Base.Release (bnet_on wx_store) wx_done wx_trace wx_end /\ genuine (net_part wx_done) /\ Forall (fun y => y <> []) (arrived 2 (net_part wx_done)) /\ begins (concat (arrived 2 (net_part wx_done))) (library_writes bx_options bx_outs) /\
  idle 2 (bn_conf wx_end) /\ map blen (arrived 2 (net_part wx_done)) = [5; 5; 5; 5; 5; 5; 5; 5] /\ length (publishes (started 2 wx_trace)) = 2%nat.
Proof.
  split; [apply bexec_runs|]. split; [apply genuine_by; vm_compute; reflexivity|].
  split; [apply Forall_forall; intros y Hy; assert (E : forallb (fun y => negb (is_nil y)) (arrived 2 (net_part wx_done)) = true) by (vm_compute; reflexivity);
    rewrite forallb_forall in E; specialize (E y Hy); destruct y; discriminate|].
  split; [exists (skipn 40 bx_stream); vm_compute; reflexivity|]. split; [vm_compute; reflexivity|]. split; vm_compute; reflexivity.
Qed.
Example C114_ex : lives ex_open [wx_trace1] wx_store /\ Forall over_network [wx_trace1] /\
  SpecConc.handled 1 (EPacket 1 (Subscribe bx_sub_read)) (part1 1 1 wx_trace) (part2 1 1 wx_trace) (part3 1 1 wx_trace) wx_trace /\
  In (str "x/+") (map fst (sb_payload bx_sub_read)) /\ topic_filter (str "x/+") /\ lone 1 wx_trace /\ keeps_subscription 1 (str "x/+") (part3 1 1 wx_trace) /\
  topic_name (str "x/y") /\ matches (str "x/+") (str "x/y") /\ one_version 1 V5 wx_trace /\
  cruns client_new wx_reads (bx_client wx_reads) wx_told /\ healthy wx_reads /\ ~ In IDrop wx_reads /\
  written_to 1 wx_trace = ConnAck bx_hello :: concat wx_groups ++ [] /\ Forall (fun g => g <> []) wx_groups /\
  Forall (fun k => ~ exceptional V5 k /\ blen (bytes_of k) <= max_frame) (concat wx_groups) /\
  client_reads Base.Release V5 [] (map (fun g => concat (map bytes_of g)) wx_groups) (packets_read wx_reads ++ []) RClosed /\
  (forall ret before, (length before <= 10)%nat -> keeping_up 1 (str "x/+") ret before (part3 1 1 wx_trace)) /\
  messages (told (bx_client wx_reads) wx_told) =
    [Message (str "x/+") (str "r") AtLeastOnce false; Message (str "x/+") (str "v") AtLeastOnce false; Message (str "x/+") (str "w") AtMostOnce false] /\
  length (routed (str "x/+") (part2 1 1 wx_trace)) = 1%nat /\ length (routed (str "x/+") (part3 1 1 wx_trace)) = 1%nat.
Proof.
  split; [apply wx_lives|]. split; [apply wx_lives|]. split; [apply handled_parts; vm_compute; reflexivity|]. split; [left; reflexivity|]. split; [filter_tac|].
  let h := eval vm_compute in (all_events wx_trace) in assert (He : all_events wx_trace = h) by (vm_compute; reflexivity).
  let h := eval vm_compute in (all_events (part3 1 1 wx_trace)) in assert (Hp : all_events (part3 1 1 wx_trace) = h) by (vm_compute; reflexivity).
  let h := eval vm_compute in (hellos wx_trace) in assert (Hh : hellos wx_trace = h) by (vm_compute; reflexivity).
  assert (Hr : length (routed (str "x/+") (part3 1 1 wx_trace)) = 1%nat) by (vm_compute; reflexivity).
  split; [|split; [|split; [name_tac|split; [match_tac|split]]]].
  - intros d id (k1 & u1 & a1 & H1 & E1) (k2 & u2 & a2 & H2 & E2). apply in_events in H1, H2. rewrite He in H1, H2.
    assert (K : id = str "b").
    { simpl in H1. repeat (destruct H1 as [H1|H1]; [try discriminate H1|]); try contradiction. injection H1 as <- <- <-. rewrite <- E1. reflexivity. }
    rewrite K in E2. simpl in H2. repeat (destruct H2 as [H2|H2]; [try discriminate H2|]); try contradiction; injection H2 as <- <- <- <-; [reflexivity|vm_compute in E2; discriminate E2].
  - intros e Hi. apply in_events in Hi. rewrite Hp in Hi. simpl in Hi.
    repeat (destruct Hi as [<-|Hi]; [repeat split; intros; discriminate|]). contradiction.
  - apply one_version_by. rewrite Hh. repeat (apply Forall_cons; [cbn; intros ?; repeat (apply Forall_cons; [cbn; intros; congruence|]); apply Forall_nil|]). apply Forall_nil.
  - split; [apply crun_sound; vm_compute; reflexivity|]. split; [intros j [<-|[<-|[<-|[<-|[]]]]]; reflexivity|]. split; [intros [H|[H|[H|[H|[]]]]]; discriminate|].
    split; [vm_compute; reflexivity|]. split; [apply Forall_cons; [discriminate|apply Forall_cons; [discriminate|apply Forall_nil]]|].
    split; [unfold wx_groups; cbn [concat app]; repeat (apply Forall_cons; [split; [cbn; intuition discriminate|apply N.leb_le; vm_compute; reflexivity]|]); apply Forall_nil|].
    split; [vm_compute; do 4 (eapply creads_packet; [vm_compute; reflexivity|]); eapply creads_end; [vm_compute; reflexivity|discriminate]|].
    split; [intros ret before Hb; apply few_keep_up; rewrite app_length, Hr; lia|].
    split; [vm_compute; reflexivity|]. split; [vm_compute; reflexivity|exact Hr].
Qed.
