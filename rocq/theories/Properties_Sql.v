(** Property C120: the broker on the SQLite store.
    Every theorem is followed by a concrete case meeting its hypotheses. *)
From Coq Require Import String Permutation.
From Verif Require Import Base Utf8 Codec SpecCodec Tac CodecFacts Str Maps Topic SpecTopic TopicFacts Property PacketProps Packets SpecPackets
  TopicTree Storage SpecStorage StorageFacts Broker Auth Session Server SpecServer ServerFacts SpecOutput Network SpecNetwork Conc SpecConc ConcFacts SpecLives
  ConcNet SpecConcNet SpecConcOutput SpecSql ConcSql Examples Properties_Storage Properties_Conc Properties_ConcNet Properties_Lives.
Local Open Scope list_scope.

(** Take all that the broker asks of its store, over any number of lives and in any schedule, where the store answers as the memory
    store does and is kept from life to life. If no client asks for a filter with a comma, a SQLite store, asked
    the same, gives the same answers from the first to the last; listings may come in another order, and retained messages have lost their packet
    identifiers. Answers of the store are all that the handlers learn of it, so what is proved of [lives] is true of a broker on SQLite, but for this. *)
Theorem C120_sqlite_answers_partial cfg trs st tr x : lives cfg trs st -> mruns cfg (conf_on st) tr x -> (forall c, Forall texts (events_of c tr)) ->
  Forall comma_free (trs ++ [tr]) ->
  let calls := flat_map store_calls (trs ++ [tr]) in
  fst (store_run mem_step (map fst calls) mem_new) = map snd calls
  /\ Forall2 alike (fst (store_run sql_step (map fst calls) sql_new)) (map snd calls).
Proof.
  intros Hl Hr Ht Hc calls. destruct (lives_calls cfg (trs ++ [tr]) _ (lv_more cfg trs st tr x Hl Hr Ht) Hc) as (_ & H2 & H3). fold calls in H2, H3.
  assert (E : fst (store_run mem_step (map fst calls) mem_new) = map snd calls) by (rewrite H3; reflexivity).
  split; [exact E|]. rewrite <- E. apply sql_alike, H2.
Qed.
Print Assumptions C120_sqlite_answers_partial.
(** The same for the bytes of the clients. *)
Theorem C120_bytes_partial cfg trs st p ms tr n : lives cfg trs st -> bruns cfg p (bnet_on st) ms tr n -> genuine (net_part ms) -> Forall comma_free (trs ++ [tr]) ->
  Forall2 alike (fst (store_run sql_step (map fst (flat_map store_calls (trs ++ [tr]))) sql_new)) (map snd (flat_map store_calls (trs ++ [tr]))).
Proof.
  intros Hl H Hg Hc. destruct (C112_schedules _ _ _ _ _ H Hg) as (Hr & _ & Ht). apply (C120_sqlite_answers_partial _ _ _ _ _ Hl Hr Ht Hc).
Qed.
Print Assumptions C120_bytes_partial.
Definition comma_freeb (tr : list item) : bool :=
  forallb (fun i => match i with IStart (EPacket _ (Subscribe p)) => forallb (fun fo => negb (existsb (N.eqb 44) (fst fo))) (sb_payload p) | _ => true end) tr.
Lemma comma_freeb_ok tr : comma_freeb tr = true -> comma_free tr.
Proof.
  intros H c p Hp. unfold comma_freeb in H. rewrite forallb_forall in H. specialize (H _ Hp). cbn in H. apply Forall_forall. intros fo Hf Hi.
  rewrite forallb_forall in H. specialize (H _ Hf). apply negb_true_iff in H. assert (E : existsb (N.eqb 44) (fst fo) = true); [|congruence].
  apply existsb_exists. exists 44. split; [exact Hi|apply N.eqb_refl].
Qed.
Example C120_ex : lives ex_open [ex_trace1] ex_left
  /\ mruns ex_open (conf_on ex_left) ex_trace2 (fst (mexec ex_open ex_life2 (conf_on ex_left))) /\ (forall c, Forall texts (events_of c ex_trace2))
  /\ Forall comma_free ([ex_trace1] ++ [ex_trace2])
  /\ In (LoadSession (str "a"), RSession (Some (Mk_session_state (str "a") [str "x/+"] false))) (store_calls ex_trace2).
Proof.
  split; [apply C109_ex|]. split; [exact (mexec_runs ex_open ex_life2 (conf_on ex_left))|]. split; [apply texts_all; vm_compute; reflexivity|].
  split; [repeat constructor; apply comma_freeb_ok; vm_compute; reflexivity|]. eapply (nth_error_In _ 0). vm_compute. reflexivity.
Qed.
(** Commas and identifiers matter: a client that subscribed to "a,b" comes back, and SQLite has it subscribed to "a" and to "b"; a retained message
    of QoS 1 comes out of SQLite without its identifier. *)
Definition ex_comma1 : list move := starts [ex_first 1 (ex_connect "a" false)] ++ rounds 60 [1]%nat ++ starts [ex_sub 1 "a,b"] ++ rounds 40 [1]%nat.
Definition ex_comma2 : list move := starts [ex_first 7 (ex_connect "a" false)] ++ rounds 60 [7]%nat.
Theorem C120_comma_refuted : exists trs st tr x n, lives ex_open trs st /\ mruns ex_open (conf_on st) tr x /\ (forall c, Forall texts (events_of c tr))
  /\ let calls := flat_map store_calls (trs ++ [tr]) in
     nth_error calls n = Some (LoadSession (str "a"), RSession (Some (Mk_session_state (str "a") [str "a,b"] false)))
     /\ nth_error (fst (store_run sql_step (map fst calls) sql_new)) n = Some (RSession (Some (Mk_session_state (str "a") [str "a"; str "b"] false))).
Proof.
  exists [snd (mexec ex_open ex_comma1 conf_new)], (w_store (cn_world (fst (mexec ex_open ex_comma1 conf_new)))).
  exists (snd (mexec ex_open ex_comma2 (conf_on (w_store (cn_world (fst (mexec ex_open ex_comma1 conf_new))))))). eexists. exists 4%nat.
  split; [apply (lv_more _ [] mem_new _ (fst (mexec ex_open ex_comma1 conf_new))); [constructor|exact (mexec_runs ex_open ex_comma1 conf_new)|apply texts_all; vm_compute; reflexivity]|].
  split; [apply mexec_runs|]. split; [apply texts_all; vm_compute; reflexivity|]. cbv zeta. split; vm_compute; reflexivity.
Qed.
Print Assumptions C120_comma_refuted.
Definition ex_keep : list move :=
  starts [ex_first 1 (ex_connect "a" false)] ++ rounds 60 [1]%nat ++ starts [EPacket 1 (Publish (Examples.ex_publish AtLeastOnce (Some 5) true "x" "v"))] ++ rounds 40 [1]%nat ++
  starts [ex_sub 1 "x"] ++ rounds 40 [1]%nat.
Theorem C120_identifier_refuted : exists tr x n m m', mruns ex_open (conf_on mem_new) tr x /\ (forall c, Forall texts (events_of c tr)) /\ comma_free tr
  /\ nth_error (store_calls tr) n = Some (GetRetained (str "x"), RMessages [m]) /\ mg_packet_id m = Some 5
  /\ nth_error (fst (store_run sql_step (map fst (store_calls tr)) sql_new)) n = Some (RMessages [m']) /\ mg_packet_id m' = None /\ mg_qos m' = AtLeastOnce.
Proof.
  exists (snd (mexec ex_open ex_keep (conf_on mem_new))). do 1 eexists. exists 3%nat. do 2 eexists.
  split; [apply mexec_runs|]. split; [apply texts_all; vm_compute; reflexivity|]. split; [apply comma_freeb_ok; vm_compute; reflexivity|].
  split; [vm_compute; reflexivity|]. split; [reflexivity|]. split; [vm_compute; reflexivity|]. split; reflexivity.
Qed.
Print Assumptions C120_identifier_refuted.
