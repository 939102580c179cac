(** C104, C105: the broker fed with bytes; a connection whose task panics. *)
From Coq Require Import String.
From Verif Require Import Base Utf8 Str Codec SpecCodec Property SpecProperty PacketProps Packets SpecPackets Frame Tac ParseFacts FrameFacts Maps Topic SpecTopic TopicFacts CodecFacts
  Storage Broker Session Server SpecServer WorldFacts ServerFacts SessionFacts HandlerFacts SpecOutput SpecWire Network SpecNetwork NetworkFacts WireDefects PacketsDefects Examples
  Properties_Auth Properties_Format Properties_Output Properties_Delivery.

(** ** C105 *)
(** Whatever the schedule, and however the bytes arrive, what the broker handles on a connection is what can be read
    from the bytes of that connection, each packet once and in order. *)
Theorem C105_handled_in_order cfg p h c : exists b cs, reads_to p [] (arrived c h) (has_handled cfg p h c) b cs.
Proof. exact (run_reads_to cfg p h c). Qed.
Print Assumptions C105_handled_in_order.
(** So it is the beginning of what a reader gets who does nothing else. *)
Theorem C105_handled_prefix cfg p h c ks out : server_reads p [] (arrived c h) ks out ->
  exists rest, ks = has_handled cfg p h c ++ rest.
Proof.
  intros H. destruct (run_reads_to cfg p h c) as (b & cs & Hr). destruct (reads_to_rest _ _ _ _ _ _ Hr _ _ H) as (ks2 & -> & _). eauto.
Qed.
Print Assumptions C105_handled_prefix.
(** If the bytes are those of packets, it is the beginning of these packets; *)
Theorem C105_sent_handled cfg p h c packets :
  Forall (fun kb => sent (fst kb) (snd kb) /\ reads V5 (fst kb)) packets ->
  Forall (fun x => x <> []) (arrived c h) -> concat (arrived c h) = concat (map snd packets) ->
  exists rest, map (fun kb => canon (fst kb)) packets = has_handled cfg p h c ++ rest.
Proof. intros Hs Hc E. eapply C105_handled_prefix. eapply server_framing; eassumption. Qed.
Print Assumptions C105_sent_handled.
(** and as long as the connection is served, polling it handles the next one, until none is left. *)
Theorem C105_next_handled cfg p h c packets u a :
  Forall (fun kb => sent (fst kb) (snd kb) /\ reads V5 (fst kb)) packets ->
  Forall (fun x => x <> []) (arrived c h) -> concat (arrived c h) = concat (map snd packets) ->
  ~ not_served (nt_world (net_state cfg p h)) c ->
  (map (fun kb => canon (fst kb)) packets = has_handled cfg p h c /\ has_handled cfg p (h ++ [NPoll c u a]) c = has_handled cfg p h c)
  \/ exists k rest, map (fun kb => canon (fst kb)) packets = has_handled cfg p h c ++ k :: rest
      /\ has_handled cfg p (h ++ [NPoll c u a]) c = has_handled cfg p h c ++ [k].
Proof.
  intros Hs Hc E Hserved. pose proof (server_framing p packets (arrived c h) Hs Hc E) as Hr.
  pose proof (well_run cfg p h c) as Hw. unfold well in Hw. rewrite has_handled_snoc. cbn [net_happens].
  destruct (tk_phase (nt_tasks (net_state cfg p h) c)); try tauto. destruct Hw as [Hw _].
  destruct (poll_read p _ _) as [[[out|] b] cs] eqn:Ep; apply poll_reads in Ep.
  - assert (Hend : forall o', (forall k, o' <> RPacket k) -> o' <> RClosed ->
        (exists cs', reads_to p (tk_buf (nt_tasks (net_state cfg p h) c)) (tk_inbox (nt_tasks (net_state cfg p h) c)) [] b cs' /\
         forall more, server_read p b (cs' ++ more) = (o', b, cs ++ more)) -> False).
    { intros o' H1 H2 (cs' & A & B). pose proof (reads_to_trans _ _ _ _ _ _ _ _ _ Hw A) as Ht.
      specialize (B []). rewrite app_nil_r in B. pose proof (reads_to_reads _ _ _ _ _ _ Ht [] o' ltac:(eapply sreads_end; eassumption)) as Hx.
      destruct (server_reads_det _ _ _ _ _ Hr _ _ Hx) as [_ Hy]. congruence. }
    destruct out as [k| | |].
    + right. pose proof (reads_to_trans _ _ _ _ _ _ _ _ _ Hw Ep) as Ht. destruct (reads_to_rest _ _ _ _ _ _ Ht _ _ Hr) as (rest & Hk & _).
      exists k, rest. rewrite <- app_assoc in Hk. split; [exact Hk|]. cbn. rewrite Nat.eqb_refl. reflexivity.
    + left. destruct Ep as (cs' & A & B). pose proof (reads_to_trans _ _ _ _ _ _ _ _ _ Hw A) as Ht.
      specialize (B []). rewrite app_nil_r in B. pose proof (reads_to_reads _ _ _ _ _ _ Ht [] RClosed ltac:(eapply sreads_end; [eassumption|discriminate])) as Hx.
      destruct (server_reads_det _ _ _ _ _ Hr _ _ Hx) as [Hy _]. rewrite !app_nil_r in Hy. split; [exact Hy|]. cbn. apply app_nil_r.
    + exfalso. eapply Hend; [| |exact Ep]; discriminate.
    + exfalso. eapply Hend; [| |exact Ep]; discriminate.
  - left. destruct Ep as (A & -> & x & B). pose proof (reads_to_trans _ _ _ _ _ _ _ _ _ Hw A) as Ht.
    assert (Hx : server_reads p b [] [] (server_eof b)).
    { eapply sreads_end; [rewrite server_read_step, B; reflexivity|]. destruct b; discriminate. }
    apply (reads_to_reads _ _ _ _ _ _ Ht) in Hx. destruct (server_reads_det _ _ _ _ _ Hr _ _ Hx) as [Hy _]. rewrite !app_nil_r in Hy.
    split; [exact Hy|]. cbn. apply app_nil_r.
Qed.
Print Assumptions C105_next_handled.
(** All histories of the broker fed with bytes are histories of Server.v in which every packet was received: what is
    proved of the latter holds of the former. *)
Theorem C105_histories cfg p h : genuine h ->
  Forall from_network (nhistory cfg p h network_new) /\
  nt_world (net_state cfg p h) = state cfg (nhistory cfg p h network_new) /\
  net_outputs cfg p h = snd (run cfg (nhistory cfg p h network_new) world_new).
Proof. intros H. split; [apply nhistory_from_network, H|]. split; [apply net_state_run|apply net_outputs_run]. Qed.
Print Assumptions C105_histories.

(** The packets handled are spelled out, one after the other and without gaps, by the bytes that have arrived on the connection. *)
Theorem C105_spelled cfg p h c : genuine h ->
  exists xs rest, concat (arrived c h) = concat xs ++ rest /\ Forall2 (lenient V5) (has_handled cfg p h c) xs.
Proof.
  intros [Hg _]. destruct (Hg c) as [Hb Hl]. destruct (run_reads_to cfg p h c) as (b & cs & H).
  destruct (reads_to_spelled _ _ _ _ _ _ H Hb Hl) as (xs & E & Hx). exists xs, (b ++ concat cs). auto.
Qed.
Print Assumptions C105_spelled.
(** Reading comes to an end on all streams of bytes. *)
Theorem C105_reading_ends p chunks : is_bytes (concat chunks) -> blen (concat chunks) < two64 ->
  exists ks out, server_reads p [] chunks ks out /\ (length ks <= length (concat chunks))%nat.
Proof.
  intros Hb Hl. destruct (server_reads_total p (length (concat chunks)) [] chunks (le_n _) Hb Hl) as (ks & out & H). exists ks, out. split; [exact H|].
  assert (Hr : exists b cs, reads_to p [] chunks ks b cs) by (apply server_reads_reads_to in H; exact H).
  destruct Hr as (b & cs & Hr). destruct (reads_to_spelled _ _ _ _ _ _ Hr Hb Hl) as (xs & E & Hx). cbn [app] in E. rewrite E, app_length.
  assert (length ks <= length (concat xs))%nat; [|lia]. clear - Hx. induction Hx as [|k x ks xs Hk _ IH]; [apply le_n|].
  cbn [concat length]. rewrite app_length. apply lenient_nonempty in Hk. destruct x; [congruence|]. cbn. lia.
Qed.
Print Assumptions C105_reading_ends.
(** After a PINGREQ the connection is deaf: whatever follows, in whatever pieces, at most what came before and the ping is handled. *)
Theorem C105_deaf_after_ping_refuted cfg p h c before rest :
  Forall (fun kb => sent (fst kb) (snd kb) /\ reads V5 (fst kb)) before -> Forall (fun x => x <> []) (arrived c h) ->
  concat (arrived c h) = concat (map snd before) ++ pingreq_enc ++ rest ->
  exists more, map (fun kb => canon (fst kb)) before ++ [PingReq] = has_handled cfg p h c ++ more.
Proof.
  intros Hs Hc E. destruct (ping_kills_stream p before rest _ Hs Hc E) as (out & H & _). eapply C105_handled_prefix, H.
Qed.
Print Assumptions C105_deaf_after_ping_refuted.
Definition arrives_ok (e : net_event) : bool :=
  match e with
  | NArrive _ bs => forallb (fun b => b <? 256) bs
  | NPoll _ u _ => utf8_valid u && (blen u <=? 65535)
  | _ => true
  end.
Definition total (h : list net_event) : N := fold_right (fun e n => match e with NArrive _ bs => blen bs + n | _ => n end) 0 h.
Lemma arrived_total c h : blen (concat (arrived c h)) <= total h.
Proof.
  induction h as [|[d bs|d u a|d f|d|] h IH]; cbn [arrived total fold_right]; try exact IH; [apply N.le_refl|].
  destruct (Nat.eqb d c); cbn [concat]; rewrite ?blen_app; unfold total in IH; lia.
Qed.
Lemma genuine_by h : forallb arrives_ok h = true -> (total h <? two64) = true -> genuine h.
Proof.
  intros H Ht. apply N.ltb_lt in Ht. rewrite forallb_forall in H. split.
  - intros c. pose proof (arrived_total c h). split; [|lia]. clear - H. induction h as [|e h IH]; [constructor|].
    assert (Hh : is_bytes (concat (arrived c h))) by (apply IH; intros x Hx; apply H; right; exact Hx).
    specialize (H e (or_introl eq_refl)). destruct e as [d bs|d u a|d f|d|]; cbn [arrived]; auto.
    destruct (Nat.eqb d c); auto. cbn [concat]. apply Forall_app. split; [apply bytes_by, H|exact Hh].
  - intros c u a Hin. specialize (H _ Hin). cbn in H. apply andb_true_iff in H. apply wf_str_by; tauto.
Qed.
Definition enc (k : packet) : bytes := match packet_enc k with Ok bs => bs | _ => [] end.
Definition ex_hello (id : string) : bytes := enc (Connect (ex_connect id true)).
Definition ex_wish : packet := Subscribe (Mk_subscribe_packet 7 None [(str "gone", ex_options)]).
(** A CONNECT and half a SUBSCRIBE arrive, then the other half with a PINGREQ and a PUBLISH. *)
Definition ex_pieces : list net_event :=
  let s := enc ex_wish in
  [NArrive 1 (ex_hello "a" ++ firstn 5 s); NPoll 1 (str "u") true; NPoll 1 [] true; NArrive 1 (skipn 5 s ++ pingreq_enc ++ enc (Publish (ex_publish AtMostOnce None false "gone" "x")));
   NPoll 1 [] true; NOut 1 (str "gone"); NPoll 1 [] true; NPoll 1 [] true].
Definition travel_connect (k : connect_packet) : connect_packet := match travel (Connect k) with Connect k' => k' | _ => k end.
Example C105_ex : genuine ex_pieces /\ Forall (fun x => x <> []) (arrived 1 ex_pieces) /\
  has_handled ex_open Release ex_pieces 1 = map canon [Connect (ex_connect "a" true); ex_wish; PingReq] /\
  ~ not_served (nt_world (net_state ex_open Release (firstn 5 ex_pieces))) 1 /\ ~ not_served (nt_world (net_state ex_open Release ex_pieces)) 1.
Proof.
  split; [apply genuine_by; vm_compute; reflexivity|].
  split; [repeat constructor; vm_compute; discriminate|]. split; [vm_compute; reflexivity|]. split; vm_compute; discriminate.
Qed.

(** ** C104 *)
Lemma over_step cfg p n ev c : tk_phase (nt_tasks n c) = Over ->
  tk_phase (nt_tasks (fst (nstep cfg p n ev)) c) = Over /\ handled c (fst (net_happens p n ev)) = [].
Proof.
  intros H. assert (Hph : forall d, (match tk_phase (nt_tasks n d) with Over => False | _ => True end) -> d <> c).
  { intros d Hd ->. rewrite H in Hd. exact Hd. }
  unfold nstep. destruct ev as [d bs|d u a|d f|d|]; cbn [net_happens].
  - cbn. split; [|reflexivity]. unfold put_task. destruct (Nat.eqb_spec c d) as [->|Hd]; assumption.
  - destruct (tk_phase (nt_tasks n d)) eqn:E; [| |split; [exact H|reflexivity]].
    + assert (Hd : d <> c) by (apply Hph; rewrite E; exact I).
      destruct (poll_read p _ _) as [[[out|] b] cs]; cbn [fst].
      * rewrite handled_first, (proj2 (Nat.eqb_neq d c) Hd). split; [|destruct out; reflexivity].
        destruct (run cfg _ _) as [w o]. cbn [fst nt_tasks]. destruct out; cbn [first_event net_phase]; rewrite !put_other by congruence; exact H.
      * cbn. split; [|reflexivity]. rewrite put_other by congruence. exact H.
    + assert (Hd : d <> c) by (apply Hph; rewrite E; exact I).
      destruct (poll_read p _ _) as [[[out|] b] cs]; cbn [fst].
      * rewrite handled_next, (proj2 (Nat.eqb_neq d c) Hd). split; [|destruct out; reflexivity].
        destruct (run cfg _ _) as [w o]. cbn [fst nt_tasks]. destruct out; cbn [next_event net_phase]; rewrite !put_other by congruence; exact H.
      * cbn. split; [|reflexivity]. rewrite put_other by congruence. exact H.
  - destruct (tk_phase (nt_tasks n d)) eqn:E; try (split; [exact H|reflexivity]).
    assert (Hd : d <> c) by (apply Hph; rewrite E; exact I). destruct (run cfg _ _) as [w o]. cbn. rewrite put_other by congruence. auto.
  - destruct (tk_phase (nt_tasks n d)) eqn:E; try (split; [exact H|reflexivity]).
    assert (Hd : d <> c) by (apply Hph; rewrite E; exact I). destruct (run cfg _ _) as [w o]. cbn. rewrite put_other by congruence. auto.
  - cbn. split; [|reflexivity]. destruct (nt_tasks n c) as [ph b cs]. cbn in *. subst ph. reflexivity.
Qed.
Lemma genuine_prefix h h' : genuine (h ++ h') -> genuine h.
Proof.
  intros [A B]. split.
  - intros c. destruct (A c) as [C D]. rewrite arrived_app, concat_app in C, D. apply Forall_app in C. rewrite blen_app in D. split; [tauto|lia].
  - intros c u a H. apply (B c u a). apply in_or_app. auto.
Qed.
Lemma from_network_was_read es : Forall from_network es -> Forall was_read es.
Proof.
  apply Forall_impl. intros [c [k|] u a|c k|c f|c|c|]; cbn; auto. intros (p & v & bs & r & _ & _ & H). eauto.
Qed.
Lemma is_panic_dec e c : {e = EPanic c} + {e <> EPanic c}.
Proof. destruct e as [d k u a|d k|d f|d|d|]; try (right; discriminate). destruct (Nat.eq_dec d c) as [->|H]; [left; reflexivity|right; congruence]. Qed.
Lemma crashed_reads cfg p h c : genuine h -> In (Crashed c) (net_outputs cfg p h) ->
  tk_phase (nt_tasks (net_state cfg p h) c) = Over /\
  exists b cs, reads_to p [] (arrived c h) (has_handled cfg p h c) b cs /\ forall more, exists cs', server_read p b (cs ++ more) = (RPanic, b, cs').
Proof.
  induction h as [|ev h IH] using rev_ind; intros Hg Hin; [destruct Hin|].
  pose proof (genuine_prefix _ _ Hg) as Hg'. rewrite net_outputs_snoc in Hin. apply in_app_or in Hin.
  rewrite net_state_snoc, arrived_app, has_handled_snoc. destruct Hin as [Hin|Hin].
  - destruct (IH Hg' Hin) as (Hp & b & cs & A & B). destruct (over_step cfg p _ ev c Hp) as [Hp' ->]. split; [exact Hp'|].
    rewrite app_nil_r. exists b, (cs ++ arrived c [ev]). split; [apply reads_to_app, A|]. intros more. rewrite <- app_assoc. apply B.
  - clear IH. pose proof (nhistory_from_network cfg p h Hg') as Hn. apply from_network_was_read in Hn.
    pose proof (well_run cfg p h c) as Hw. pose proof (net_wf cfg p h) as Hwf. pose proof (net_state_run cfg p h) as Hst.
    set (n := net_state cfg p h) in *.
    assert (He : In (EPanic c) (fst (net_happens p n ev))).
    { unfold nstep in Hin. destruct (net_happens p n ev) as [es ts] eqn:E. cbn [fst]. destruct (run cfg es (nt_world n)) as [w o] eqn:Er. cbn [snd] in Hin.
      assert (Hes : es = [] \/ exists e, es = [e]).
      { destruct ev as [d bs|d u a|d f|d|]; cbn in E.
        - inv E. auto.
        - destruct (tk_phase _); [| |inv E; auto]; destruct (poll_read p _ _) as [[[out|] b] cs]; inv E; eauto.
        - destruct (tk_phase _); inv E; eauto.
        - destruct (tk_phase _); inv E; eauto.
        - inv E. eauto. }
      destruct Hes as [->|[e ->]]; [inv Er; destruct Hin|]. rewrite run_one in Er.
      destruct (is_panic_dec e c) as [->|Hne]; [left; reflexivity|]. exfalso.
      rewrite Hst in Er. eapply C62_no_panic; eassumption. }
    destruct ev as [d bs|d u a|d f|d|]; cbn [net_happens fst] in He.
    + destruct He.
    + destruct (tk_phase (nt_tasks n d)) eqn:Eph; [| |destruct He].
      * destruct (poll_read p _ _) as [[[out|] b] cs]; [|destruct He]. destruct He as [He|[]]. destruct out; discriminate.
      * destruct (poll_read p (tk_buf (nt_tasks n d)) (tk_inbox (nt_tasks n d))) as [[[out|] b] cs] eqn:Ep; [|destruct He]. destruct He as [He|[]].
        destruct out; try discriminate. inversion He; subst d. clear He.
        unfold well in Hw. rewrite Eph in Hw. destruct Hw as [Hw Hs]. pose proof Ep as Ep'. apply poll_reads in Ep'. destruct Ep' as (cs' & A & B).
        unfold nstep. cbn [net_happens]. rewrite Eph, Ep. rewrite run_one. destruct (step cfg (nt_world n) (next_event c RPanic)) as [w o] eqn:Es.
        pose proof (next_event_over cfg c RPanic _ _ _ Hwf Hs ltac:(discriminate) Es) as Hov.
        cbn [fst nt_tasks next_event net_phase]. rewrite put_same. cbn [tk_phase]. rewrite (not_served_unserved _ _ Hov). split; [reflexivity|].
        exists b, cs'. cbn [arrived handled]. rewrite !app_nil_r. split.
        -- rewrite <- (app_nil_r (has_handled cfg p h c)). eapply reads_to_trans; eassumption.
        -- intros more. exists (cs ++ more). apply B.
    + destruct (tk_phase _); cbn in He; intuition discriminate.
    + destruct (tk_phase _); cbn in He; intuition discriminate.
    + cbn in He. intuition discriminate.
Qed.
(** Only its own bytes can make the task of a connection panic: after the packets handled, the decoder panics on what follows. *)
Theorem C104_crash_own_bytes cfg p h c : genuine h -> In (Crashed c) (net_outputs cfg p h) ->
  server_reads p [] (arrived c h) (has_handled cfg p h c) RPanic.
Proof.
  intros Hg Hin. destruct (crashed_reads cfg p h c Hg Hin) as (_ & b & cs & A & B). rewrite <- (app_nil_r (has_handled cfg p h c)).
  eapply reads_to_reads; [exact A|]. destruct (B []) as [cs' H]. rewrite app_nil_r in H. eapply sreads_end; [exact H|discriminate].
Qed.
Print Assumptions C104_crash_own_bytes.
(** Nothing else changes when a task panics. *)
Theorem C104_panic_isolated cfg w c i s w' o : serves w c i s -> step cfg w (EPanic c) = (w', o) ->
  o = [Crashed c] /\ not_served w' c /\ (forall d j t, d <> c -> (serves w' d j t <-> serves w d j t)) /\
  (forall j, nth_error (w_heap w') j = nth_error (w_heap w) j) /\ w_manager w' = w_manager w /\
  nothing_routed w w' /\ same_retained w w' /\ same_wills w w' /\ same_inflight w w' /\ same_stored_sessions w w'.
Proof.
  intros [Hc Hi] H. cbn in H. rewrite Hc, Hi in H. inv H. split; [reflexivity|].
  split; [apply aget_del_same, nateqb_spec|]. split.
  { intros d j t Hd. unfold serves. cbn. rewrite aget_del_other by (auto using nateqb_spec). tauto. }
  split; [reflexivity|]. split; [reflexivity|]. split; [intros q; reflexivity|]. repeat split.
Qed.
Print Assumptions C104_panic_isolated.
(** Without a will it is as if the connection had been lost. *)
Theorem C104_as_if_lost cfg w c i s : serves w c i s -> se_will s = None ->
  fst (step cfg w (EPanic c)) = fst (step cfg w (EEnd c)).
Proof. intros [Hc Hi] Hw. cbn. rewrite Hc, Hi. cbn. unfold end_connection. cbn. rewrite Hi, Hw. reflexivity. Qed.
Print Assumptions C104_as_if_lost.
(** Packets, and then a frame that panics the decoder when nothing follows it: however this arrives, the packets are read and
    then the decoder panics. *)
Theorem C104_stream_panics p packets frame chunks :
  Forall (fun kb => sent (fst kb) (snd kb) /\ reads V5 (fst kb)) packets -> is_min_frame frame -> parse p frame = Panic ->
  Forall (fun c => c <> []) chunks -> concat chunks = concat (map snd packets) ++ frame ->
  server_reads p [] chunks (map (fun kb => canon (fst kb)) packets) RPanic.
Proof.
  intros Hs Hf Hp Hc E. destruct (server_reads_prefix p packets frame chunks [] Hs Hc E) as (buf & cs & E1 & E2 & E3).
  rewrite <- (app_nil_r (map _ packets)). apply E3. rewrite <- (app_nil_r frame) in E1.
  destruct (read_one p frame [] Hf cs buf E2 E1) as (r & cs' & E4 & E5 & _). apply app_eq_nil in E5. destruct E5 as [-> _].
  eapply sreads_end; [rewrite E4, server_read_step; unfold parse_packet; rewrite check_complete by exact Hf; rewrite app_nil_r, Hp; reflexivity|discriminate].
Qed.
Print Assumptions C104_stream_panics.
(** It matters how the bytes arrive: an empty AUTH panics the decoder if nothing has arrived after it, and not if another packet has. *)
Theorem C104_split_matters_refuted : exists cut whole : list bytes, concat cut = concat whole /\ Forall (fun c => c <> []) (cut ++ whole) /\
  forall p, server_reads p [] cut [] RPanic /\ ~ exists ks, server_reads p [] whole ks RPanic.
Proof.
  exists [[0xf0; 0]; [0xc0; 0]], [[0xf0; 0; 0xc0; 0]]. split; [reflexivity|]. split; [repeat constructor; discriminate|]. intros p. split.
  - eapply sreads_end; [destruct p; vm_compute; reflexivity|discriminate].
  - intros [ks H]. inversion H as [? ? ? ? ? E|? ? ? ? ? ? ? E]; subst; destruct p; vm_compute in E; discriminate.
Qed.
Print Assumptions C104_split_matters_refuted.
(** The will of a client is not published when its task panics, although somebody is subscribed to it. (Compare C45_lost_connection.) *)
Definition ex_dies (last : bytes) : list net_event :=
  [NArrive 1 (ex_hello "a" ++ enc ex_wish); NPoll 1 (str "u") true; NPoll 1 [] true;
   NArrive 2 (enc (Connect (ex_connect_will "b" true "gone" "W"))); NPoll 2 (str "v") true; NArrive 2 last; NPoll 2 [] true].
Theorem C104_will_published_refuted : exists h1 h2 k x, genuine h1 /\ genuine h2 /\ declares k x /\ topic_name (wl_topic x) /\
  In (Connect k) (has_handled ex_open Release h1 2) /\ In (Connect k) (has_handled ex_open Release h2 2) /\
  In (Crashed 2) (net_outputs ex_open Release h1) /\ In (Closed 2) (net_outputs ex_open Release h2) /\
  sent_to (nt_world (net_state ex_open Release h1)) (wl_topic x) = [] /\
  sent_to (nt_world (net_state ex_open Release h2)) (wl_topic x) <> [].
Proof.
  exists (ex_dies [0xf0; 0]), (ex_dies []), (travel_connect (ex_connect_will "b" true "gone" "W")), (Mk_will (str "gone") (str "W") AtMostOnce false).
  split; [apply genuine_by; vm_compute; reflexivity|]. split; [apply genuine_by; vm_compute; reflexivity|].
  split; [vm_compute; repeat split|]. split; [apply publish_topic_iff; [apply utf8_valid_iff|]; vm_compute; reflexivity|].
  split; [vm_compute; auto|]. split; [vm_compute; auto|]. split; [vm_compute; auto 20|]. split; [vm_compute; auto 20|].
  split; [vm_compute; reflexivity|vm_compute; discriminate].
Qed.
Print Assumptions C104_will_published_refuted.
Example C104_ex : genuine (ex_dies [0xf0; 0]) /\ In (Crashed 2) (net_outputs ex_open Release (ex_dies [0xf0; 0])) /\
  (exists s, serves (nt_world (net_state ex_open Release (firstn 6 (ex_dies [0xf0; 0])))) 2 1 s) /\
  (exists s, serves (nt_world (net_state ex_open Release (ex_dies [0xf0; 0]))) 1 0 s) /\
  is_min_frame [0xf0; 0] /\ parse Release [0xf0; 0] = Panic.
Proof.
  split; [apply genuine_by; vm_compute; reflexivity|]. split; [vm_compute; auto 20|]. split; [eexists; split; vm_compute; reflexivity|].
  split; [eexists; split; vm_compute; reflexivity|]. split; [|vm_compute; reflexivity].
  exists 0xf0, [0], []. split; [reflexivity|]. split; [constructor; vm_compute; reflexivity|]. split; [vm_compute; discriminate|].
  intros l Hl. destruct l as [|y l]; [inversion Hl|]. rewrite !blen_cons, blen_nil. lia.
Qed.
