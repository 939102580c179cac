(** Property C126: clients that start anew, while handlers interleave and the broker stops and starts.
    Every theorem is followed by a concrete case meeting its hypotheses. *)
From Coq Require Import String.
From Verif Require Import Base Utf8 Codec SpecCodec Tac CodecFacts Str Maps Topic SpecTopic TopicFacts Property PacketProps Packets
  TopicTree TreeFacts Storage StorageFacts Broker Auth Session Server SpecServer SessionFacts ServerFacts HandlerFacts HistoryFacts
  ResumeFacts Conc SpecConc ConcFacts ConcLocks ConcRoute ConcOwn ConcProv SpecDurable ConcStore SpecLives ConcLives SpecUnsub ConcUnsub ConcAnew
  SpecAcked Examples Properties_Routing Properties_Conc Properties_Provenance Properties_Durable Properties_Unsub Properties_Acked.
Local Open Scope list_scope.

(** In the life [tr] connection [c] sends a CONNECT with clean start, and is sent the CONNACK that lets it in before [rest]. *)
Definition starts_anew (c : nat) (pre mid rest tr : list item) : Prop := exists k u w a,
  tr = pre ++ IStart (EFirst c (Some (Connect k)) u w) :: mid ++ rest /\ cf_clean_start (c_flags k) = true
  /\ (forall e, In (IStart e) mid -> event_conn e <> c) /\ In (IStep c (OOut (Sent c (ConnAck a)))) mid /\ ca_reason_code a = Success.

(** Once its CONNECT with clean start has been handled, the client is sent nothing for filters that it does not ask for from then on,
    whatever it had asked for before, as long as it stays connected. *)
Theorem C126_silence cfg trs st tr x c id f pre mid rest q :
  lives cfg trs st -> mruns cfg (conf_on st) tr x -> (forall d, Forall texts (events_of d tr)) -> owns c id tr ->
  starts_anew c pre mid (IEnd c :: rest) tr -> unasked c f rest -> goes_on_only c rest -> ~ delivered c f q rest.
Proof.
  intros Hl Hr Ht Ho (k & u & w & a & -> & Hc & Hm & Ha & Hs) Hu Hg Hd. pose proof (lives_sane _ _ _ Hl) as Hsane.
  destruct (started_anew cfg c id f k u w a pre mid (IEnd c :: rest) x Hr Ht Ho Hc Ha Hs Hm) as (y & Hy & HS & _); [intros p [Hp|Hp]; [discriminate|apply Hu, Hp]|].
  pose proof (owned_fair cfg _ x c id f false Hr Ht Ho rest) as Hfair. inversion Hy as [|? m y1 ? ? ? Hm1 Hy1]; subst.
  assert (HS1 : silent c id f true (mine c (pre ++ IStart (EFirst c (Some (Connect k)) u w) :: mid ++ IEnd c :: rest)) y1) by (eapply silent_step; [exact Hm1|exact I|exact HS]).
  apply silent_false in HS1.
  - eapply silent_runs in HS1; [|exact Hy1|apply Hfair; [|exact Hu|intros _; exact Hg]].
    + destruct HS1 as [_ H1]. destruct Hd as [Hq Ht']. destruct (H1 q Hq Ht'); discriminate.
    + intros i Hi. apply in_or_app. right. right. apply in_or_app. right. right. exact Hi.
  - apply mstep_inv in Hm1. destruct Hm1 as [(e & -> & E & _)|[(d & -> & E & Hn & ->)|(d & k' & o & k1 & -> & E & _)]]; try discriminate. injection E as <-.
    cbn [cn_tasks]. rewrite (aget_adel Nat.eqb Nat.eqb_eq), Nat.eqb_refl. reflexivity.
Qed.
Print Assumptions C126_silence.
(** When it comes back, with or without clean start, it may be sent what had not been acknowledged, marked as a duplicate, and nothing
    else. *)
Theorem C126_after_reconnecting cfg trs st tr x c id f pre mid rest q :
  lives cfg trs st -> mruns cfg (conf_on st) tr x -> (forall d, Forall texts (events_of d tr)) -> owns c id tr ->
  starts_anew c pre mid rest tr -> unasked c f rest -> delivered c f q rest -> pb_dup q = true.
Proof.
  intros Hl Hr Ht Ho (k & u & w & a & -> & Hc & Hm & Ha & Hs) Hu [Hq Ht']. pose proof (lives_sane _ _ _ Hl) as Hsane.
  destruct (started_anew cfg c id f k u w a pre mid rest x Hr Ht Ho Hc Ha Hs Hm Hu) as (y & Hy & HS & _). pose proof (owned_fair cfg _ x c id f true Hr Ht Ho rest) as Hfair.
  pose proof (fun F => silent_runs c id f true _ cfg y rest x Hy F HS) as H. edestruct H as [_ H1]; [apply Hfair; [|exact Hu|discriminate]|].
  - intros i Hi. apply in_or_app. right. right. apply in_or_app. right. exact Hi.
  - apply (H1 q Hq Ht').
Qed.
Print Assumptions C126_after_reconnecting.
(** The same in every later life, wherever the broker stopped after it had sent the CONNACK. *)
Theorem C126_over_lives cfg trs st tr x c id f pre mid rest st2 tr2 x2 d q :
  lives cfg trs st -> mruns cfg (conf_on st) tr x -> (forall d, Forall texts (events_of d tr)) -> owns c id tr ->
  starts_anew c pre mid rest tr -> unasked c f rest ->
  passes cfg (without_asking id f) (w_store (cn_world x)) st2 ->
  mruns cfg (conf_on st2) tr2 x2 -> (forall d, Forall texts (events_of d tr2)) -> owns d id tr2 -> unasked d f tr2 ->
  delivered d f q tr2 -> pb_dup q = true.
Proof.
  intros Hl Hr Ht Ho (k & u & w & a & -> & Hc & Hm & Ha & Hs) Hu Hp Hr2 Ht2 Ho2 Hu2 Hq. pose proof (lives_sane _ _ _ Hl) as Hsane.
  destruct (started_anew cfg c id f k u w a pre mid rest x Hr Ht Ho Hc Ha Hs Hm Hu) as (y & Hy & _ & (J & (_ & _ & _ & _ & HS) & _)).
  pose proof (lv_more _ _ _ _ _ Hl Hr Ht) as Hl1. pose proof (passes_lacks _ _ _ _ _ _ Hl1 Hp HS) as Hs2. destruct (passes_lives _ _ _ _ _ Hl1 Hp) as (trs2 & Hl2).
  eapply life_lacks; eauto.
Qed.
Print Assumptions C126_over_lives.

(** ** Cases *)
(** Client a subscribes to x/y, is sent one message, which it does not acknowledge, and loses the connection. It comes back with clean
    start while client b publishes another message for x/y. *)
Definition ex_an_moves : list move :=
  starts [ex_first 1 (ex_connect "a" false); ex_first 2 (ex_connect "b" true)] ++ rounds 40 [1; 2]%nat ++
  starts [ex_sub 1 "x/y"] ++ rounds 40 [1]%nat ++ starts [ex_msg "u"] ++ rounds 40 [2]%nat ++ starts [EOut 1 (str "x/y")] ++ rounds 40 [1]%nat ++
  starts [EEnd 1] ++ rounds 40 [1]%nat ++ starts [ex_first 1 (ex_connect "a" true); ex_msg "v"] ++ rounds 40 [1; 2]%nat ++
  starts [ex_msg "w"] ++ rounds 40 [2]%nat ++ starts [EOut 1 (str "x/y")] ++ rounds 40 [1]%nat ++ starts [EEnd 1] ++ rounds 40 [1]%nat.
Definition ex_an_tr := snd (mexec ex_open ex_an_moves conf_new).
Definition ex_an_x := fst (mexec ex_open ex_an_moves conf_new).
Notation ex_an_st := (w_store (cn_world ex_an_x)).
(** The broker starts again; client a comes back on connection 3, without clean start, and client b publishes. *)
Definition ex_an_tr2 := snd (mexec ex_open ex_un_moves2 (conf_on ex_an_st)).
Example C126_ex : let tr := ex_an_tr in let pre := part1 1 4 tr in let mid := part2 1 4 tr in let rest := part3 1 4 tr in
  lives ex_open [] mem_new /\ mruns ex_open (conf_on mem_new) tr ex_an_x /\ (forall d, Forall texts (events_of d tr)) /\ owns 1 (str "a") tr
  /\ starts_anew 1 pre mid (IEnd 1 :: rest) tr /\ unasked 1 (str "x/y") rest /\ unasked 1 (str "x/y") (IEnd 1 :: rest) /\ goes_on_only 1 rest
  /\ map pb_payload (publishes_to 1 pre) = [Some (str "u")] /\ publishes_to 1 rest = [].
Proof.
  intros tr pre mid rest. split; [constructor|]. split; [exact (mexec_runs ex_open ex_an_moves conf_new)|]. split; [apply texts_all; vm_compute; reflexivity|]. split.
  { apply owns_comers. assert (H : comers tr = [(1%nat, str "a", str "uuid"); (2%nat, str "b", str "uuid"); (1%nat, str "a", str "uuid")]) by (vm_compute; reflexivity). rewrite H.
    intros d i u [E|[E|[E|[]]]]; injection E as <- <- <-; (split; [discriminate|]); [left; auto|right; split; discriminate|left; auto]. }
  split.
  { exists (ex_connect "a" true), (str "uuid"), true, (Mk_connack_packet V5 false Success None). split; [vm_compute; reflexivity|]. split; [reflexivity|]. split; [apply no_start_b; vm_compute; reflexivity|].
    split; [|reflexivity]. let rec go n := first [eapply (nth_error_In _ n); vm_compute; reflexivity|let m := eval vm_compute in (Nat.ltb n 60) in constr_eq m true; go (S n)] in go 0%nat. }
  split; [apply unasked_b; vm_compute; reflexivity|]. split; [apply unasked_b; vm_compute; reflexivity|]. split; [apply goes_on_b; vm_compute; reflexivity|]. split; vm_compute; reflexivity.
Qed.
Example C126_ex2 : let tr2 := ex_an_tr2 in
  passes ex_open (without_asking (str "a") (str "x/y")) ex_an_st ex_an_st /\ (exists x, mruns ex_open (conf_on ex_an_st) tr2 x) /\ (forall d, Forall texts (events_of d tr2))
  /\ owns 3 (str "a") tr2 /\ unasked 3 (str "x/y") tr2 /\ publishes_to 3 tr2 = [ex_un_retry].
Proof.
  intros tr2. split; [constructor|]. split; [exists (fst (mexec ex_open ex_un_moves2 (conf_on ex_an_st))); apply mexec_runs|]. split; [apply texts_all; vm_compute; reflexivity|]. split.
  { apply owns_comers. assert (H : comers tr2 = [(3%nat, str "a", str "uuid"); (2%nat, str "b", str "uuid")]) by (vm_compute; reflexivity). rewrite H.
    intros d i u [E|[E|[]]]; injection E as <- <- <-; (split; [discriminate|]); [left; auto|right; split; discriminate]. }
  split; [apply unasked_b; vm_compute; reflexivity|vm_compute; reflexivity].
Qed.
(** The exception is needed: here a message that was sent before the clean start is sent again after it. *)
Theorem C126_nothing_at_all_refuted : exists cfg tr x c id f pre mid rest tr2 x2 d q,
  mruns cfg conf_new tr x /\ (forall d, Forall texts (events_of d tr)) /\ owns c id tr /\ starts_anew c pre mid (IEnd c :: rest) tr /\ unasked c f rest
  /\ mruns cfg (conf_on (w_store (cn_world x))) tr2 x2 /\ owns d id tr2 /\ unasked d f tr2 /\ delivered d f q tr2.
Proof.
  destruct C126_ex as (_ & H1 & H2 & H3 & H4 & H5 & _). destruct C126_ex2 as (_ & (x2 & H6) & _ & H7 & H8 & _).
  exists ex_open, ex_an_tr, ex_an_x, 1%nat, (str "a"), (str "x/y"), (part1 1 4 ex_an_tr), (part2 1 4 ex_an_tr), (part3 1 4 ex_an_tr), ex_an_tr2, x2, 3%nat, ex_un_retry.
  cbv zeta in H6, H7, H8.
  split; [exact H1|]. split; [exact H2|]. split; [exact H3|]. split; [exact H4|]. split; [exact H5|]. split; [exact H6|]. split; [exact H7|]. split; [exact H8|].
  split; [|reflexivity]. assert (Hd : In (Sent 3 (Publish ex_un_retry)) (outputs_of 3 ex_an_tr2)).
  { let rec go n := first [eapply (nth_error_In _ n); vm_compute; reflexivity|let m := eval vm_compute in (Nat.ltb n 9) in constr_eq m true; go (S n)] in go 0%nat. }
  clear - Hd. exact (outputs_in 3 _ _ Hd).
Qed.
Print Assumptions C126_nothing_at_all_refuted.
