(** Property C115: a build without overflow checks does what a build with them does, as long as the latter does not panic.
    Every theorem is followed by a concrete case meeting its hypotheses. *)
From Coq Require Import String.
From Verif Require Import Base Codec Str SpecCodec Property SpecProperty PacketProps Packets SpecPackets Frame Tac CodecFacts ParseFacts FrameFacts ProfileFacts
  Storage Broker Session Server Network SpecNetwork NetworkFacts Conc SpecConc ConcFacts ConcNet SpecConcNet ConcNetFacts Examples Client SpecClient ClientFacts Properties_Wire Properties_Output Properties_EndToEnd Properties_ClientWire Properties_Network Properties_Bytes Properties_Conc Properties_ConcNet Properties_ConcOutput.
Local Open Scope list_scope.

Lemma weak {A} P (d r : res A) : ag P d r -> d <> Panic -> r = d.
Proof. intros [->|[-> _]] H; congruence. Qed.
(** All bytes, all versions: if the checked build does not panic, the other one reads the same packet, leaves the same rest or reports the same error. *)
Theorem C115_parse v bs : parse_with_version Debug v bs <> Panic -> parse_with_version Base.Release v bs = parse_with_version Debug v bs.
Proof. apply weak with (P := fun kr => match fst kr with Publish _ => True | k => without_entries k end), parse_ag. Qed.
Print Assumptions C115_parse.
Lemma check_ag bs : ag (fun _ => True) (check Debug bs) (check Base.Release bs).
Proof.
  unfold check. destruct (_ <? 2); [apply ag_refl|]. apply ag_bind; [apply vbi_ag|]. intros [m r]. apply ag_bind; [apply ag_refl|]. intros vsz.
  apply usize_ag; [intros _|auto]. apply usize_ag; [intros _; apply ag_refl|auto].
Qed.
Theorem C115_check bs : check Debug bs <> Panic -> check Base.Release bs = check Debug bs.
Proof. apply weak with (P := fun _ => True), check_ag. Qed.
Print Assumptions C115_check.
(** So where the unchecked build panics the checked one does too. *)
Theorem C115_release_panics v bs : parse_with_version Base.Release v bs = Panic -> parse_with_version Debug v bs = Panic.
Proof. intros H. destruct (parse_with_version Debug v bs) eqn:E; [|..|reflexivity]; rewrite C115_parse in H; congruence. Qed.
Print Assumptions C115_release_panics.
(** Where only the checked build panics, the other one reports an error, or reads a SUBSCRIBE, SUBACK, UNSUBSCRIBE or UNSUBACK without an entry. *)
Theorem C115_difference v bs k r : is_bytes bs -> blen bs < two64 ->
  parse_with_version Debug v bs = Panic -> parse_with_version Base.Release v bs = Ok (k, r) ->
  match k with
  | Subscribe s => sb_payload s = [] | SubAck s => sa_payload s = [] | Unsubscribe s => us_payload s = [] | UnsubAck s => ua_payload s = []
  | _ => False
  end.
Proof.
  intros Hb Hl Hd Hr. destruct (parse_ag v bs) as [E|[_ H]]; [congruence|]. specialize (H _ Hr). cbn [fst] in H. destruct k; try exact H.
  exfalso. destruct bs as [|h t]; [discriminate|]. unfold parse_with_version in Hd, Hr.
  destruct (publish_ag (h :: t) Hb Hl) as [E|[E Hn]].
  - destruct (h / 16) as [|q]; [discriminate|]. repeat (destruct q as [q|q|]; try discriminate);
      try (unfold lift_packet in Hr; apply bind_ok in Hr; destruct Hr as ([a b'] & _ & Hr); try destruct (supports_properties v); discriminate).
    rewrite E in Hd. congruence.
  - destruct (h / 16) as [|q]; [discriminate|]. repeat (destruct q as [q|q|]; try discriminate);
      try (unfold lift_packet in Hr; apply bind_ok in Hr; destruct Hr as ([a b'] & _ & Hr); try destruct (supports_properties v); discriminate).
    unfold lift_packet in Hr. apply bind_ok in Hr. destruct Hr as ([a b'] & Hr & _). exact (Hn _ Hr).
Qed.
Print Assumptions C115_difference.
(** It does happen: a length with a leading zero passes the check of completeness of both builds. *)
Theorem C115_same_refuted : exists bs s r, is_bytes bs /\ check Debug bs = Ok tt /\ check Base.Release bs = Ok tt /\ parse Debug bs = Panic /\
  parse Base.Release bs = Ok (Subscribe s, r) /\ sb_payload s = [].
Proof.
  exists [0x82; 0x85; 0; 0; 1; 0; 7]. do 2 eexists. split; [apply bytes_by; reflexivity|]. split; [vm_compute; reflexivity|]. split; [vm_compute; reflexivity|].
  split; [vm_compute; reflexivity|]. split; [vm_compute; reflexivity|]. reflexivity.
Qed.
Print Assumptions C115_same_refuted.

(** ** Streams *)
Lemma parse_packet_same buf : parse_packet Debug buf <> Panic -> parse_packet Base.Release buf = parse_packet Debug buf.
Proof.
  unfold parse_packet. destruct (check Debug buf) as [[]|e|] eqn:Ec; intros H; rewrite C115_check, Ec by congruence; [|reflexivity|congruence].
  unfold parse in *. rewrite C115_parse; [reflexivity|]. intros E. rewrite E in H. apply H. reflexivity.
Qed.
Lemma server_read_same cs : forall buf out b cs', server_read Debug buf cs = (out, b, cs') -> out <> RPanic -> server_read Base.Release buf cs = (out, b, cs').
Proof.
  induction cs as [|c cs IH]; intros buf out b cs' H Hn; rewrite server_read_step in *;
    (assert (Hp : parse_packet Debug buf <> Panic) by (intros E; rewrite E in H; congruence)); rewrite (parse_packet_same _ Hp);
    destruct (parse_packet Debug buf) as [[[k|] x]|e|]; try exact H. destruct c; [exact H|]. apply IH; assumption.
Qed.
(** The broker reads the same packets from every stream, in all pieces, and sees the same end, unless the checked build panics. *)
Theorem C115_server_reads buf cs ks out : server_reads Debug buf cs ks out -> out <> RPanic -> server_reads Base.Release buf cs ks out.
Proof.
  induction 1 as [buf cs out b cs' H Hk|buf cs k b cs' ks out H _ IH]; intros Hn.
  - eapply sreads_end; [apply server_read_same; eassumption|exact Hk].
  - eapply sreads_packet; [apply server_read_same; [exact H|discriminate]|auto].
Qed.
Print Assumptions C115_server_reads.
Lemma client_try_same v buf : client_try Debug v buf <> Panic -> client_try Base.Release v buf = client_try Debug v buf.
Proof.
  unfold client_try. destruct buf as [|b buf]; [reflexivity|]. intros H. rewrite C115_parse; [reflexivity|]. intros E. rewrite E in H. apply H. reflexivity.
Qed.
Lemma client_read_same v cs : forall buf out b cs', client_read Debug v buf cs = (out, b, cs') -> out <> RPanic -> client_read Base.Release v buf cs = (out, b, cs').
Proof.
  induction cs as [|c cs IH]; intros buf out b cs' H Hn; cbn [client_read] in *;
    (assert (Hp : client_try Debug v buf <> Panic) by (intros E; rewrite E in H; congruence)); rewrite (client_try_same _ _ Hp);
    destruct (client_try Debug v buf) as [[[k|] x]|e|]; try exact H. destruct c; [exact H|]. apply IH; assumption.
Qed.
(** So does the library. *)
Theorem C115_client_reads v buf cs ks out : client_reads Debug v buf cs ks out -> out <> RPanic -> client_reads Base.Release v buf cs ks out.
Proof.
  induction 1 as [buf cs out b cs' H Hk|buf cs k b cs' ks out H _ IH]; intros Hn.
  - eapply creads_end; [apply client_read_same; eassumption|exact Hk].
  - eapply creads_packet; [apply client_read_same; [exact H|discriminate]|auto].
Qed.
Print Assumptions C115_client_reads.

(** ** The broker *)
Lemma poll_same inbox : forall buf r b cs, poll_read Debug buf inbox = (r, b, cs) -> r <> Some RPanic -> poll_read Base.Release buf inbox = (r, b, cs).
Proof.
  induction inbox as [|c inbox IH]; intros buf r b cs H Hn; rewrite poll_step in *;
    (assert (Hp : parse_packet Debug buf <> Panic) by (intros E; rewrite E in H; congruence)); rewrite (parse_packet_same _ Hp);
    destruct (parse_packet Debug buf) as [[[k|] x]|e|]; try exact H. destruct c; [exact H|]. apply IH; assumption.
Qed.
Lemma calm_poll {st} cfg ms0 tr0 n ms c r b cs : bruns cfg Debug (bnet_on st) ms0 tr0 n ->
  (forall ks, ~ server_reads Debug [] (arrived c (net_part (ms0 ++ ms))) ks RPanic) -> tk_phase (bn_tasks n c) <> Over ->
  poll_read Debug (tk_buf (bn_tasks n c)) (tk_inbox (bn_tasks n c)) = (r, b, cs) -> r <> Some RPanic.
Proof.
  intros H Hc Hph Hp ->. pose proof (bwell_on _ _ _ _ _ _ c H) as Hw. unfold bwell in Hw.
  assert (Hr : reads_to Debug [] (arrived c (net_part ms0)) (started c tr0) (tk_buf (bn_tasks n c)) (tk_inbox (bn_tasks n c))) by (destruct (tk_phase _); [apply Hw..|congruence]).
  apply poll_reads in Hp. destruct Hp as (cs' & A & B). apply (Hc (started c tr0 ++ [] ++ [])). rewrite app_assoc.
  eapply (reads_to_reads Debug [] _ _ b (cs' ++ arrived c (net_part ms))).
  - eapply reads_to_trans; [rewrite net_part_app, arrived_app; apply reads_to_app, Hr|apply reads_to_app, A].
  - eapply sreads_end; [apply B|discriminate].
Qed.
Lemma step_same {st} cfg ms0 tr0 n m ms : bruns cfg Debug (bnet_on st) ms0 tr0 n ->
  (forall c ks, ~ server_reads Debug [] (arrived c (net_part (ms0 ++ ms))) ks RPanic) -> bstep cfg Base.Release n m = bstep cfg Debug n m.
Proof.
  intros H Hc. destruct m as [[c bs|c u a|c f|c|]|c]; try reflexivity. cbn [bstep]. destruct (busy c n); [reflexivity|].
  destruct (poll_read Debug (tk_buf (bn_tasks n c)) (tk_inbox (bn_tasks n c))) as [[r b] cs] eqn:Ep.
  destruct (tk_phase (bn_tasks n c)) eqn:Eph; [| |reflexivity];
    rewrite (poll_same _ _ _ _ _ Ep) by (eapply calm_poll; [exact H|apply Hc|rewrite Eph; discriminate|exact Ep]); reflexivity.
Qed.
(** Bytes, readers and handlers as in C112: if no stream makes the checked build panic, the runs of the two builds are the same. *)
Theorem C115_broker {st} cfg ms tr n : (forall c ks, ~ server_reads Debug [] (arrived c (net_part ms)) ks RPanic) ->
  (bruns cfg Base.Release (bnet_on st) ms tr n <-> bruns cfg Debug (bnet_on st) ms tr n).
Proof.
  assert (Happ : forall p n0 a ta n1 b tb n2, bruns cfg p n0 a ta n1 -> bruns cfg p n1 b tb n2 -> bruns cfg p n0 (a ++ b) (ta ++ tb) n2).
  { intros p n0 a ta n1 b tb n2 H. induction H; intros; cbn [app]; [assumption|]. rewrite <- app_assoc. econstructor; eauto. }
  assert (G : forall ms1 tr1 n1 n2, (forall ms0 tr0, bruns cfg Debug (bnet_on st) ms0 tr0 n1 ->
    (forall c ks, ~ server_reads Debug [] (arrived c (net_part (ms0 ++ ms1))) ks RPanic) ->
    (bruns cfg Base.Release n1 ms1 tr1 n2 <-> bruns cfg Debug n1 ms1 tr1 n2))).
  { induction ms1 as [|m ms1 IH]; intros tr1 n1 n2 ms0 tr0 H0 Hc; [split; intros H; inversion H; constructor|].
    assert (Es : bstep cfg Base.Release n1 m = bstep cfg Debug n1 m) by (eapply step_same; eassumption).
    split; intros H; inversion H as [|? ? n' is ? tr' ? Hs Hr]; subst.
    - rewrite Es in Hs. econstructor; [exact Hs|]. eapply (IH tr' n' n2 (ms0 ++ [m]) (tr0 ++ is ++ [])); [|rewrite <- app_assoc; exact Hc|exact Hr].
      eapply Happ; [exact H0|]. econstructor; [exact Hs|constructor].
    - econstructor; [rewrite Es; exact Hs|]. eapply (IH tr' n' n2 (ms0 ++ [m]) (tr0 ++ is ++ [])); [|rewrite <- app_assoc; exact Hc|exact Hr].
      eapply Happ; [exact H0|]. econstructor; [exact Hs|constructor]. }
  intros Hc. apply (G ms tr (bnet_on st) n [] []); [constructor|exact Hc].
Qed.
Print Assumptions C115_broker.
(** A connection on which the first bytes of what a library writes (without pings) have arrived, in any pieces. *)
Definition library_speaks (cs : list bytes) : Prop :=
  Forall (fun x => x <> []) cs /\ exists o is ca outs, options_fit o /\ cruns client_new is ca outs /\ Forall fair is /\ ~ In PingReq (written outs) /\
    begins (concat cs) (library_writes o outs).
(** If nothing but libraries speak to the broker, the builds do the same. *)
Theorem C115_libraries {st} cfg ms tr n : (forall c, arrived c (net_part ms) = [] \/ library_speaks (arrived c (net_part ms))) ->
  (bruns cfg Base.Release (bnet_on st) ms tr n <-> bruns cfg Debug (bnet_on st) ms tr n).
Proof.
  intros Hl. apply C115_broker. intros c ks Hp. destruct (Hl c) as [E|(Hne & o & is & ca & outs & Ho & Hr & Hf & Hpi & rest & E)].
  - rewrite E in Hp. assert (H : server_reads Debug [] [] [] RClosed) by (eapply sreads_end; [vm_compute; reflexivity|discriminate]).
    destruct (NetworkFacts.server_reads_det _ _ _ _ _ Hp _ _ H) as [_ A]. discriminate.
  - pose proof (library_crosses o is ca outs Ho Hr Hf Hpi) as Hx. rewrite <- paired_bytes in E.
    destruct (partly_read Debug _ _ _ Hx Hne E) as (m & out & Hs & Hout & _).
    destruct (NetworkFacts.server_reads_det _ _ _ _ _ Hp _ _ Hs) as [_ A]. subst out. destruct Hout; discriminate.
Qed.
Print Assumptions C115_libraries.

(** Concrete cases: the library of C106 speaks on connection 2, its bytes cut into pieces of five; nothing has come on other connections. *)
Definition px_moves : list bmove := flat_map (fun x => BNet (NArrive 2 x) :: bpolls [2]%nat ++ brounds 40 [2]%nat) (firstn 8 (in_fives 100 bx_stream)).
Definition px_run := bexec ex_open Debug px_moves (bnet_on mem_new).
Lemma arrived_only c ms : forallb (fun ev => match ev with NArrive d _ => Nat.eqb d 2 | _ => true end) ms = true -> c <> 2%nat -> arrived c ms = [].
Proof.
  intros H Hc. induction ms as [|ev ms IH]; [reflexivity|]. cbn [forallb] in H. apply andb_prop in H. destruct H as [H1 H2].
  change (ev :: ms) with ([ev] ++ ms). rewrite arrived_app, (IH H2), app_nil_r. destruct ev as [d x| | | |]; try reflexivity.
  cbn. apply Nat.eqb_eq in H1. subst d. destruct (Nat.eqb_spec 2 c); [congruence|reflexivity].
Qed.
Example C115_libraries_ex : bruns ex_open Debug (bnet_on mem_new) (snd (fst px_run)) (snd px_run) (fst (fst px_run)) /\
  (forall c, arrived c (net_part (snd (fst px_run))) = [] \/ library_speaks (arrived c (net_part (snd (fst px_run))))) /\
  length (arrived 2 (net_part (snd (fst px_run)))) = 8%nat /\ length (started 2 (snd px_run)) = 3%nat.
Proof.
  split; [apply bexec_runs|]. split; [|split; vm_compute; reflexivity].
  intros c. destruct (Nat.eq_dec c 2) as [->|Hc]; [right|left; apply arrived_only; [vm_compute; reflexivity|exact Hc]].
  split; [apply Forall_forall; intros y Hy; assert (E : forallb (fun y => negb (is_nil y)) (arrived 2 (net_part (snd (fst px_run)))) = true) by (vm_compute; reflexivity);
    rewrite forallb_forall in E; specialize (E y Hy); destruct y; discriminate|].
  exists bx_options, bx_calls, (bx_client bx_calls), bx_outs. split; [exact bx_options_fit|]. split; [apply crun_sound; vm_compute; reflexivity|].
  split; [exact bx_fair|]. split; [exact bx_no_ping|]. exists (skipn 40 bx_stream). vm_compute. reflexivity.
Qed.
(** A stream that only the checked build panics on, one that both read, and one at whose end both report the same error. *)
Example C115_ex : server_reads Debug [] [[0x82; 0x85; 0; 0; 1; 0; 7]] [] RPanic /\
  (exists s, server_reads Base.Release [] [[0x82; 0x85; 0; 0; 1; 0; 7]] [Subscribe s] (RError (EReason NormalDisconnection)) /\ sb_payload s = []) /\
  server_reads Debug [] [[0xe0]; [0; 0xe1]; [0]] [Disconnect (Mk_disconnect_packet NormalDisconnection None)] (RError (EReason MalformedPacket)) /\
  client_reads Debug V5 [] [[0xe0; 0]] [] RPanic /\ client_reads Debug V5 [] [[0xe0; 1; 0]] [Disconnect (Mk_disconnect_packet Success None)] RClosed /\
  parse_with_version Debug V5 [0x82; 0x85; 0; 0; 1; 0; 7] = Panic /\ parse_with_version Debug V5 [0xe0; 1; 0] <> Panic /\ check Debug [0xe0; 1; 0] <> Panic /\
  parse_with_version Base.Release V5 [0x20; 0] = Panic.
Proof.
  split; [eapply sreads_end; [vm_compute; reflexivity|discriminate]|].
  split; [eexists; split; [eapply sreads_packet; [vm_compute; reflexivity|]; eapply sreads_end; [vm_compute; reflexivity|discriminate]|reflexivity]|].
  split; [eapply sreads_packet; [vm_compute; reflexivity|]; eapply sreads_end; [vm_compute; reflexivity|discriminate]|].
  split; [eapply creads_end; [vm_compute; reflexivity|discriminate]|].
  split; [eapply creads_packet; [vm_compute; reflexivity|]; eapply creads_end; [vm_compute; reflexivity|discriminate]|].
  split; [vm_compute; reflexivity|]. split; [vm_compute; discriminate|]. split; [vm_compute; discriminate|]. vm_compute. reflexivity.
Qed.
