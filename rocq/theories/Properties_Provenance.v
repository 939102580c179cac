(** Property C102: what is delivered was sent and asked for, in every schedule.
    Every theorem is followed by a concrete case meeting its hypotheses. *)
From Coq Require Import String.
From Verif Require Import Base Utf8 Codec SpecCodec Tac CodecFacts Str Maps Topic SpecTopic TopicFacts Property PacketProps Packets
  TopicTree TreeFacts Storage StorageFacts Broker SpecBroker BrokerFacts Auth Session Server SpecServer SessionFacts ServerFacts HandlerFacts
  Conc SpecConc ConcFacts ConcLocks ConcRoute ConcOwn ConcDeliver ConcProv Examples Properties_Routing Properties_Delivery Properties_Conc.

(** Whatever the handlers of all connections do at the same time, a PUBLISH that is written to a connection is written by its
    own handler and carries payload, QoS and packet identifier of a message that an accepted client sent before, on an open
    connection or as its will, to a topic that matches the one named in the PUBLISH. *)
Theorem C102_delivered_was_sent cfg pre c d q post x :
  mruns cfg conf_new (pre ++ IStep c (OOut (Sent d (Publish q))) :: post) x -> (forall e, Forall texts (events_of e pre)) ->
  d = c /\ exists m, sourced cfg pre m /\ pb_payload q = mg_payload m /\ pb_qos q = mg_qos m /\ pb_packet_id q = mg_packet_id m
    /\ matches (pb_topic q) (mg_topic m) /\ (~ In 35 (pb_topic q) -> ~ In 43 (pb_topic q) -> pb_topic q = mg_topic m).
Proof.
  intros Hr Ht. destruct (delivered_at _ no_past _ _ _ _ _ _ Hr (stgood_new _ _) Ht) as (-> & _ & m & [[]|H1] & H2 & H3 & H4 & H5). split; [reflexivity|].
  exists m. repeat split; auto. intros N1 N2. apply exact_match; auto.
Qed.
Print Assumptions C102_delivered_was_sent.
(** The topic named in it is a filter that the client asked for: on this connection or on one joined to it by client identifiers. *)
Theorem C102_delivered_was_asked cfg pre c d q post x :
  mruns cfg conf_new (pre ++ IStep c (OOut (Sent d (Publish q))) :: post) x -> (forall e, Forall texts (events_of e pre)) ->
  exists e, linked pre c e /\ asked e (pb_topic q) pre.
Proof. intros Hr Ht. destruct (delivered_at _ no_past _ _ _ _ _ _ Hr (stgood_new _ _) Ht) as (_ & (e & H1 & [H2|(id & _ & [])]) & _). eauto. Qed.
Print Assumptions C102_delivered_was_asked.
(** So a client whose identifier nobody else uses is sent nothing that it did not ask for itself. Missing: clients
    without an identifier. *)
Theorem C102_asked_itself_partial cfg pre c d q post x :
  mruns cfg conf_new (pre ++ IStep c (OOut (Sent d (Publish q))) :: post) x -> (forall e, Forall texts (events_of e pre)) ->
  (forall e id, named c id pre -> named e id pre -> e = c) -> asked c (pb_topic q) pre.
Proof.
  intros Hr Ht Hl. destruct (C102_delivered_was_asked _ _ _ _ _ _ _ Hr Ht) as (e & He & Ha).
  assert (e = c); [|subst e; exact Ha]. clear Ha. induction He as [|c d' e id He IH H1 H2]; [reflexivity|].
  assert (d' = c) by (apply IH; auto). subst d'. eapply Hl; eauto.
Qed.
Print Assumptions C102_asked_itself_partial.

(** The first PUBLISH written to connection [c]; who came with which identifier. *)
Definition is_publish (c : nat) (i : item) : bool := match i with IStep d (OOut (Sent _ (Publish _))) => Nat.eqb d c | _ => false end.
Definition before (c : nat) (tr : list item) := fst (upto (is_publish c) 0 tr).
Definition rest (c : nat) (tr : list item) := snd (upto (is_publish c) 0 tr).
Definition comers (tr : list item) : list (nat * bytes * bytes) :=
  flat_map (fun i => match i with IStart (EFirst c (Some (Connect k)) u _) => [(c, presented k, u)] | _ => [] end) tr.
Lemma comers_in c k u a tr : In (IStart (EFirst c (Some (Connect k)) u a)) tr -> In (c, presented k, u) (comers tr).
Proof. intros H. apply in_flat_map. exists (IStart (EFirst c (Some (Connect k)) u a)). split; [exact H|]. left. reflexivity. Qed.
(** Clients 1 and 2 publish at the same time, client 1 is then sent a message for its filter. *)
Example C102_ex : exists q, ex_trace = before 1 ex_trace ++ IStep 1 (OOut (Sent 1 (Publish q))) :: rest 1 ex_trace
  /\ pb_topic q = str "x/+" /\ pb_payload q = Some (str "v") /\ (forall e, Forall texts (events_of e (before 1 ex_trace)))
  /\ (forall e id, named 1 id (before 1 ex_trace) -> named e id (before 1 ex_trace) -> e = 1%nat).
Proof.
  eexists. split; [vm_compute; reflexivity|]. split; [reflexivity|]. split; [reflexivity|]. split; [apply texts_all; vm_compute; reflexivity|].
  assert (H : comers (before 1 ex_trace) = [(1%nat, str "a", str "uuid"); (2%nat, str "b", str "uuid")]) by (vm_compute; reflexivity).
  intros e id (k & u & a & H1 & H2) (k' & u' & a' & H3 & H4). apply comers_in in H1, H3. rewrite H in H1, H3.
  destruct H3 as [H3|[H3|[]]]; [congruence|]. exfalso. injection H3 as _ Hk' _. rewrite <- Hk' in H4.
  destruct H1 as [H1|[H1|[]]]; [|discriminate]. injection H1 as Hk _. rewrite <- Hk in H2.
  destruct H2 as [H2|[H2 _]]; [|discriminate]. destruct H4 as [H4|[H4 _]]; [|discriminate]. subst id. discriminate.
Qed.
(** False: clients without an identifier share a session. Client 2, which came without an identifier and subscribed to
    nothing, is sent a message for the filter of client 1, although the identifiers made up for them differ. *)
Definition ex_nobody (c : nat) (u : string) : event := EFirst c (Some (Connect (ex_connect "" false))) (str u) true.
Definition ex_anon : list move :=
  starts [ex_nobody 1 "u1"; ex_nobody 2 "u2"; ex_first 3 (ex_connect "p" true)] ++ rounds 60 [1; 2; 3]%nat ++
  starts [ex_sub 1 "secret"] ++ rounds 40 [1]%nat ++ starts [ex_pub 3 AtMostOnce None "secret" "v"] ++ rounds 40 [3]%nat ++
  starts [EOut 2 (str "secret")] ++ rounds 40 [2]%nat.
Definition ex_anon_trace := snd (mexec ex_open ex_anon conf_new).
Definition subs (c : nat) (i : item) : bool := match i with IStart (EPacket d (Subscribe _)) => Nat.eqb d c | _ => false end.
Lemma subs_none c tr : existsb (subs c) tr = false -> forall p, ~ In (IStart (EPacket c (Subscribe p))) tr.
Proof.
  intros H p Hp. assert (existsb (subs c) tr = true); [|congruence]. apply existsb_exists. eexists. split; [exact Hp|]. apply Nat.eqb_refl.
Qed.
Lemma ex_anon_split : exists q, ex_anon_trace = before 2 ex_anon_trace ++ IStep 2 (OOut (Sent 2 (Publish q))) :: rest 2 ex_anon_trace.
Proof. eexists. vm_compute. reflexivity. Qed.
Theorem C102_asked_itself_refuted : exists cfg pre c q post x,
  mruns cfg conf_new (pre ++ IStep c (OOut (Sent c (Publish q))) :: post) x /\ (forall e, Forall texts (events_of e pre))
  /\ (forall d e k k' u u' a a', In (IStart (EFirst d (Some (Connect k)) u a)) pre -> In (IStart (EFirst e (Some (Connect k')) u' a')) pre ->
        d <> e -> u <> u')
  /\ (forall p, ~ In (IStart (EPacket c (Subscribe p))) pre).
Proof.
  destruct ex_anon_split as (q & Hq). exists ex_open, (before 2 ex_anon_trace), 2%nat, q, (rest 2 ex_anon_trace), (fst (mexec ex_open ex_anon conf_new)).
  split; [|split; [|split]].
  - rewrite <- Hq. exact (mexec_runs ex_open ex_anon conf_new).
  - apply texts_all. vm_compute. reflexivity.
  - assert (H : comers (before 2 ex_anon_trace) = [(1%nat, [], str "u1"); (2%nat, [], str "u2"); (3%nat, str "p", str "uuid")]) by (vm_compute; reflexivity).
    intros d e k k' u u' a a' H1 H2 Hne. apply comers_in in H1, H2. rewrite H in H1, H2.
    destruct H1 as [H1|[H1|[H1|[]]]], H2 as [H2|[H2|[H2|[]]]]; injection H1 as <- _ <-; injection H2 as <- _ <-; congruence || discriminate.
  - apply subs_none. vm_compute. reflexivity.
Qed.
Print Assumptions C102_asked_itself_refuted.
