(** Properties C110, C111: a client that comes back after stops of the broker, at any point of any schedule, finds what it was
    told, and is sent what is published from then on.
    Every theorem is followed by a concrete case meeting its hypotheses. *)
From Coq Require Import String.
From Verif Require Import Base Utf8 Codec SpecCodec Tac CodecFacts Str Maps Topic SpecTopic TopicFacts Property PacketProps Packets
  TopicTree TreeFacts Storage SpecStorage StorageFacts Broker SpecBroker BrokerFacts Auth Session Server SpecServer SessionFacts ServerFacts
  HandlerFacts HistoryFacts ProvenanceFacts WorldFacts DeliveryFacts StoreFacts ConnectFacts ResumeFacts Crash CrashFacts Examples
  Conc SpecConc ConcFacts ConcRoute ConcOwn ConcDeliver ConcProv ConcWill WillFacts SpecDurable SpecLives ConcLives ConcStore ConcHold ConcTestament ConcBack ConcLocks
  Properties_Routing Properties_Crash Properties_Conc Properties_Provenance Properties_Races Properties_Durable Properties_Testament.
Local Open Scope list_scope.

(** ** Lemmas *)
Lemma goes_on_lives cfg trs st id Q st' : lives cfg trs st -> goes_on cfg id Q st st' -> exists trs', lives cfg trs' st'.
Proof.
  intros Hl H. induction H as [|st1 tr x c H [trs1 IH] Hr Ht _ _]; [eauto|]. exists (trs1 ++ [tr]). econstructor; eassumption.
Qed.
Lemma goes_on_safe cfg trs st id Q st' pid (F : bytes -> Prop) (P : Prop) z : lives cfg trs st -> goes_on cfg id Q st st' ->
  (forall c tr, Q c tr -> (forall f, F f -> no_unsubscribe f c tr) /\ (P -> no_ack id pid c tr)) -> safe F P z (view id pid st) -> safe F P z (view id pid st').
Proof.
  intros Hl H HQ Hs. induction H as [|st1 tr x c H IH Hr Ht Ho Hq]; [exact Hs|]. destruct (goes_on_lives _ _ _ _ _ _ Hl H) as [trs1 Hl1]. pose proof (lives_sane _ _ _ Hl1) as Hsane.
  destruct (HQ _ _ Hq) as [H1 H2]. eapply (life_safe cfg tr x c id pid F P z Hr Ht Ho H1 H2 IH).
Qed.
Lemma goes_on_entries cfg trs st id st' : lives cfg trs st -> goes_on cfg id no_event st st' -> entries id st' = entries id st.
Proof.
  intros Hl H. induction H as [|st1 tr x c H IH Hr Ht [Ho _] Hq]; [reflexivity|]. destruct (goes_on_lives _ _ _ _ _ _ Hl H) as [trs1 Hl1]. pose proof (lives_sane _ _ _ Hl1) as Hsane.
  rewrite <- IH. apply (untouched_runs cfg tr x c id Hr Ht Ho _ _ _ Hr [] []); [rewrite app_nil_r; reflexivity|constructor|exact Hq|reflexivity|split; [reflexivity|split; reflexivity]].
Qed.

(** ** C110 *)
(** The client of [id] was sent a SUBACK that grants filter [f], and did not unsubscribe or start anew before the broker
    stopped. The broker goes through any number of lives in which the client comes back at most once, without clean start, and
    does not unsubscribe; each is stopped at any point. Then the client comes back at any point of a schedule of handlers:
    it is told that its session is present, and when its CONNECT has been handled it is subscribed to [f]. *)
Theorem C110_subscriptions cfg trs st tr x c id p a f pre mid post st2 tr2 x2 d e pre2 mid2 post2 :
  lives cfg trs st -> mruns cfg (conf_on st) tr x -> (forall d, Forall texts (events_of d tr)) -> owns c id tr ->
  tr = pre ++ IStart (EPacket c (Subscribe p)) :: mid ++ IStep c (OOut (Sent c (SubAck a))) :: post -> opened c pre -> ~ In (IEnd c) mid ->
  grants p a f -> stays_subscribed c f post ->
  goes_on cfg id (no_unsubscribe f) (w_store (cn_world x)) st2 ->
  mruns cfg (conf_on st2) tr2 x2 -> (forall d, Forall texts (events_of d tr2)) -> returns cfg id d e pre2 mid2 post2 tr2 ->
  (exists b, In (Sent d (ConnAck b)) (outputs_of d mid2) /\ ca_reason_code b = Success /\ ca_session_present b = true)
  /\ exists z j s, mruns cfg (conf_on st2) (pre2 ++ IStart e :: mid2 ++ [IEnd d]) z /\ mruns cfg z post2 x2 /\ serves (cn_world z) d j s /\ subscribed s f.
Proof.
  intros Hl Hr Ht Ho E Hop Hend Hg Hst Hgo Hr2 Ht2 (k & u & Ee & Hh & Hev & Hacc & Hpk & Hcl & Ho2).
  pose proof (lives_sane _ _ _ Hl) as Hs1. destruct (suback_stored _ _ _ _ _ _ _ _ _ _ _ Hr Ht Ho E Hop Hend Hg Hst) as (y & Hy & Hf).
  assert (Hl1 : lives cfg (trs ++ [tr]) (w_store (cn_world x))) by (econstructor; eassumption).
  destruct (goes_on_lives _ _ _ _ _ _ Hl1 Hgo) as [trs2 Hl2]. pose proof (lives_sane _ _ _ Hl2) as Hs2.
  destruct (goes_on_safe _ _ _ _ _ _ 0 (eq f) False noflight Hl1 Hgo) as ((y2 & Hy2 & Hf2) & _).
  { intros c' tr' Hq. split; [intros g <-; exact Hq|contradiction]. }
  { split; [|contradiction]. exists y. split; [exact Hy|]. intros g <-. exact Hf. }
  cbn [view fst] in Hy2.
  destruct (back cfg tr2 x2 d id Hr2 Ht2 Ho2 k u y2 Hy2 0 (eq f) False noflight Hf2 (False_ind _) _ _ _ _ Hh Ee Hev Hacc Hpk Hcl) as (z & i & s & H1 & H2 & _ & _ & H3 & [H4 _] & _ & H5 & _).
  split; [exact H5|]. exists z, i, s. split; [exact H1|]. split; [exact H2|]. split; [exact H3|]. apply H4, Hf2. reflexivity.
Qed.
Print Assumptions C110_subscriptions.
(** The client was sent a message with QoS 1 or 2 and does not acknowledge it, in this or any of the following lives, and its
    identifier is not used again. When it comes back, it is sent the message again, marked as a duplicate. *)
Theorem C110_messages cfg trs st tr x c id f q n pre mid post st2 tr2 x2 d e pre2 mid2 post2 :
  lives cfg trs st -> mruns cfg (conf_on st) tr x -> (forall d, Forall texts (events_of d tr)) -> owns c id tr ->
  tr = pre ++ IStart (EOut c f) :: mid ++ IStep c (OOut (Sent c (Publish q))) :: post -> opened c pre -> ~ In (IEnd c) mid ->
  pb_packet_id q = Some n -> (pb_qos q = AtLeastOnce \/ pb_qos q = ExactlyOnce) -> unacknowledged c n post -> ~ reused c id n post ->
  goes_on cfg id (no_ack id n) (w_store (cn_world x)) st2 ->
  mruns cfg (conf_on st2) tr2 x2 -> (forall d, Forall texts (events_of d tr2)) -> returns cfg id d e pre2 mid2 post2 tr2 ->
  In (Sent d (Publish (Mk_publish_packet true (pb_qos q) false (pb_topic q) (Some n) None (pb_payload q)))) (outputs_of d mid2).
Proof.
  intros Hl Hr Ht Ho E Hop Hend Hid Hq Hua Hre Hgo Hr2 Ht2 (k & u & Ee & Hh & Hev & Hacc & Hpk & Hcl & Ho2).
  pose proof (lives_sane _ _ _ Hl) as Hs1. destruct (publish_stored _ _ _ _ _ _ _ _ _ _ _ Hr Ht Ho E Hop Hend Hid Hq Hua Hre) as (y & Hy & Hz). set (z := Mk_inflight _ _ _ _ _) in Hz.
  assert (Hl1 : lives cfg (trs ++ [tr]) (w_store (cn_world x))) by (econstructor; eassumption).
  destruct (goes_on_lives _ _ _ _ _ _ Hl1 Hgo) as [trs2 Hl2]. pose proof (lives_sane _ _ _ Hl2) as Hs2.
  destruct (goes_on_safe _ _ _ _ _ _ n (fun _ => False) True z Hl1 Hgo) as ((y2 & Hy2 & Hf2) & Hz2).
  { intros c' tr' Hq'. split; [intros g []|auto]. }
  { split; [|auto]. exists y. split; [exact Hy|]. intros g []. }
  cbn [view fst snd] in Hy2, Hz2. specialize (Hz2 I).
  destruct (back cfg tr2 x2 d id Hr2 Ht2 Ho2 k u y2 Hy2 0 (fun _ => False) False noflight (fun _ => False_ind _) (False_ind _) _ _ _ _ Hh Ee Hev Hacc Hpk Hcl) as (_ & _ & _ & _ & _ & _ & _ & _ & _ & _ & _ & H).
  apply (H z). apply (inflight_all _ n), Hz2.
Qed.
Print Assumptions C110_messages.
(** The client has connected with a will, with clean start or when no will of it was stored, and does not disconnect. After a stop, and any number of lives in
    which it does not come, it comes back: its will has been sent before the stop, or the connection has it. *)
Theorem C110_will_partial cfg trs st tr x c id k u w pre mid post st2 tr2 x2 d e pre2 mid2 post2 :
  lives cfg trs st -> mruns cfg (conf_on st) tr x -> (forall d, Forall texts (events_of d tr)) -> owns c id tr ->
  handled c (EFirst c (Some (Connect k)) u true) pre mid post tr -> ~ opened c pre -> accepts cfg k -> cf_clean_start (c_flags k) = true \/ mem_get_will id st = None ->
  declares k w -> topic_name (wl_topic w) -> remains c post ->
  goes_on cfg id no_event (w_store (cn_world x)) st2 ->
  mruns cfg (conf_on st2) tr2 x2 -> (forall d, Forall texts (events_of d tr2)) -> returns cfg id d e pre2 mid2 post2 tr2 ->
  (exists m, announces w m /\ forall f, topic_filter f -> matches f (wl_topic w) ->
     granted f (pre ++ IStart (EFirst c (Some (Connect k)) u true) :: mid) -> In m (routed_by c f post))
  \/ exists z j s, mruns cfg (conf_on st2) (pre2 ++ IStart e :: mid2 ++ [IEnd d]) z /\ mruns cfg z post2 x2 /\ serves (cn_world z) d j s /\ se_will s = Some w.
Proof.
  intros Hl Hr Ht Ho Hh Hop Hacc Hcl Hdw Htn Hre Hgo Hr2 Ht2 (k2 & u2 & Ee & Hh2 & Hev & Hacc2 & Hpk & Hcl2 & Ho2).
  pose proof (lives_sane _ _ _ Hl) as Hs1. destruct (sent_or_stored _ _ _ _ _ _ _ _ _ _ _ Hr Ht Ho Hh Hop Hacc Hcl Hdw Htn Hre) as [H|(y & Hy & Hw)]; [left; exact H|right].
  assert (Hl1 : lives cfg (trs ++ [tr]) (w_store (cn_world x))) by (econstructor; eassumption).
  destruct (goes_on_lives _ _ _ _ _ _ Hl1 Hgo) as [trs2 Hl2]. pose proof (lives_sane _ _ _ Hl2) as Hs2.
  pose proof (goes_on_entries _ _ _ _ _ Hl1 Hgo) as Hen. unfold entries in Hen. injection Hen as H1 H2 _. unfold mem_load_session, mem_get_will in *. rewrite <- H1 in Hy. rewrite <- H2 in Hw.
  destruct (back cfg tr2 x2 d id Hr2 Ht2 Ho2 k2 u2 y Hy 0 (fun _ => False) False noflight (fun _ => False_ind _) (False_ind _) _ _ _ _ Hh2 Ee Hev Hacc2 Hpk Hcl2) as (z & i & s & G1 & G2 & _ & _ & G3 & [_ G4] & _).
  exists z, i, s. split; [exact G1|]. split; [exact G2|]. split; [exact G3|]. apply G4. exact Hw.
Qed.
Print Assumptions C110_will_partial.

(** ** C111 *)
Lemma found_again cfg trs st tr x c id p a f pre mid post st2 :
  lives cfg trs st -> mruns cfg (conf_on st) tr x -> (forall d, Forall texts (events_of d tr)) -> owns c id tr ->
  tr = pre ++ IStart (EPacket c (Subscribe p)) :: mid ++ IStep c (OOut (Sent c (SubAck a))) :: post -> opened c pre -> ~ In (IEnd c) mid ->
  grants p a f -> stays_subscribed c f post -> goes_on cfg id (no_unsubscribe f) (w_store (cn_world x)) st2 ->
  (exists trs2, lives cfg trs2 st2) /\ exists y, mem_load_session id st2 = Some y /\ In f (ss_subscriptions y).
Proof.
  intros Hl Hr Ht Ho E Hop Hend Hg Hst Hgo.
  pose proof (lives_sane _ _ _ Hl) as Hs1. destruct (suback_stored _ _ _ _ _ _ _ _ _ _ _ Hr Ht Ho E Hop Hend Hg Hst) as (y & Hy & Hf).
  assert (Hl1 : lives cfg (trs ++ [tr]) (w_store (cn_world x))) by (econstructor; eassumption).
  split; [exact (goes_on_lives _ _ _ _ _ _ Hl1 Hgo)|].
  destruct (goes_on_safe _ _ _ _ _ _ 0 (eq f) False noflight Hl1 Hgo) as ((y2 & Hy2 & Hf2) & _).
  { intros c' tr' Hq. split; [intros g <-; exact Hq|contradiction]. }
  { split; [|contradiction]. exists y. split; [exact Hy|]. intros g <-. exact Hf. }
  exists y2. split; [exact Hy2|]. apply Hf2. reflexivity.
Qed.
(** The client was granted filter [f] in an earlier life, as in C110, comes back, and does not subscribe to [f] again. From
    the end of the handler of its CONNECT on, the PUBLISH packets it is sent for [f] are, in order and without repetition,
    retained messages that the store holds for [f] and messages that were routed to [f] since the subscription was taken up; if
    never more than 16 of the latter wait, none is skipped; and if one waits, a poll of the subscription sends exactly one. *)
Theorem C111_delivered_from_return_on cfg trs st tr x c id p a f pre mid post st2 tr2 x2 d e pre2 mid2 post2 :
  lives cfg trs st -> mruns cfg (conf_on st) tr x -> (forall d, Forall texts (events_of d tr)) -> owns c id tr ->
  tr = pre ++ IStart (EPacket c (Subscribe p)) :: mid ++ IStep c (OOut (Sent c (SubAck a))) :: post -> opened c pre -> ~ In (IEnd c) mid ->
  grants p a f -> stays_subscribed c f post ->
  goes_on cfg id (no_unsubscribe f) (w_store (cn_world x)) st2 ->
  mruns cfg (conf_on st2) tr2 x2 -> (forall d, Forall texts (events_of d tr2)) -> returns cfg id d e pre2 mid2 post2 tr2 -> keeps_subscription d f post2 ->
  exists ret n m1 m2, mid2 = m1 ++ IStep d (OSub f n) :: m2 /\ In (IStep d (OStore (GetRetained f) (RMessages ret))) m2 /\
  let all := ret ++ routed f (m2 ++ post2) in
  let sent := deliveries d f (outputs_of d post2) in
  (Forall (fun m => mg_qos m <> QInvalid) all ->
   (exists l, subseq l all /\ Forall2 (sent_as f) sent l) /\
   (keeping_up d f ret (routed f m2) post2 ->
      Forall2 (sent_as f) sent (firstn (length sent) all) /\
      forall p1 m p2, post2 = p1 ++ IStart (EOut d f) :: m ++ IEnd d :: p2 -> ~ In (IEnd d) m ->
        opened d (pre2 ++ IStart e :: mid2 ++ IEnd d :: p1) ->
        (length (deliveries d f (outputs_of d p1)) < length (ret ++ routed f (m2 ++ p1)))%nat ->
        exists p, deliveries d f (outputs_of d m) = [p])).
Proof.
  intros Hl Hr Ht Ho E Hop Hend Hg Hst Hgo Hr2 Ht2 (k & u & Ee & Hh & Hev & Hacc & Hpk & Hcl & Ho2) Hkeep.
  destruct (found_again _ _ _ _ _ _ _ _ _ _ _ _ _ _ Hl Hr Ht Ho E Hop Hend Hg Hst Hgo) as ((trs2 & Hl2) & y2 & Hy2 & Hf2). pose proof (lives_sane _ _ _ Hl2) as Hs2.
  destruct (back_run cfg tr2 x2 d id Hr2 Ht2 Ho2 k u y2 Hy2 0 (eq f) False noflight (fun g (Hg : f = g) => eq_ind f (fun g => In g _) Hf2 g Hg) (False_ind _) _ _ _ _ f Hh Ee Hev Hacc Hpk Hcl Hf2 Hkeep)
    as (i & ret & n & m1 & m2 & L0 & y & Hmid & Hret & Hy0 & Hy & Hd & Hq).
  exists ret, n, m1, m2. split; [exact Hmid|]. split; [exact Hret|]. intros all sent Hgood.
  pose proof Hh as (Htr & _). set (P := pre2 ++ IStart e :: mid2 ++ [IEnd d]) in *.
  assert (HP : forall l, P ++ l = pre2 ++ IStart e :: mid2 ++ IEnd d :: l) by (intros l; unfold P; rewrite <- app_assoc; simpl; rewrite <- app_assoc; reflexivity).
  specialize (Ht2 d). rewrite Htr, <- HP in Ht2. unfold all in *. rewrite routed_app in *.
  destruct (delivered_run cfg d i f ret (routed f m2) L0 P post2 x2 y Hy0 Hy Ht2 Hd Hq Hgood) as [D1 D2].
  split; [exact D1|]. intros W. destruct (D2 W) as [D3 D4]. split; [exact D3|]. intros p1 m p2 Hp He Hop1 Hlt. rewrite <- HP in Hop1. rewrite routed_app in Hlt. eauto.
Qed.
Print Assumptions C111_delivered_from_return_on.
(** And every PUBLISH of any client that begins to be handled after the return, on a topic that [f] matches, is routed to [f]
    exactly once. *)
Theorem C111_published_reaches cfg trs st tr x c id p a f pre mid post st2 tr2 x2 d e pre2 mid2 post2 g q before during after :
  lives cfg trs st -> mruns cfg (conf_on st) tr x -> (forall d, Forall texts (events_of d tr)) -> owns c id tr ->
  tr = pre ++ IStart (EPacket c (Subscribe p)) :: mid ++ IStep c (OOut (Sent c (SubAck a))) :: post -> opened c pre -> ~ In (IEnd c) mid ->
  grants p a f -> stays_subscribed c f post ->
  goes_on cfg id (no_unsubscribe f) (w_store (cn_world x)) st2 ->
  mruns cfg (conf_on st2) tr2 x2 -> (forall d, Forall texts (events_of d tr2)) -> returns cfg id d e pre2 mid2 post2 tr2 ->
  post2 = before ++ IStart (EPacket g (Publish q)) :: during ++ IEnd g :: after -> ~ In (IEnd g) during ->
  opened g (pre2 ++ IStart e :: mid2 ++ IEnd d :: before) -> valid_publish q -> matches f (pb_topic q) ->
  exists m, carries q m /\ routed_by g f during = [m].
Proof.
  intros Hl Hr Ht Ho E Hop Hend Hg Hst Hgo Hr2 Ht2 (k & u & Ee & Hh & Hev & Hacc & Hpk & Hcl & Ho2) Hp Hend2 Hopg Hv M.
  destruct (found_again _ _ _ _ _ _ _ _ _ _ _ _ _ _ Hl Hr Ht Ho E Hop Hend Hg Hst Hgo) as ((trs2 & Hl2) & y2 & Hy2 & Hf2). pose proof (lives_sane _ _ _ Hl2) as Hs2.
  destruct (back_sub cfg tr2 x2 d id Hr2 Ht2 Ho2 k u y2 Hy2 0 (eq f) False noflight (fun g (Hg : f = g) => eq_ind f (fun g => In g _) Hf2 g Hg) (False_ind _) _ _ _ _ f Hh Ee Hev Hacc Hpk Hcl Hf2) as (n & Hn).
  pose proof Hh as (Htr & _). rewrite Hp in Htr.
  assert (Hh2 : handled g (EPacket g (Publish q)) (pre2 ++ IStart e :: mid2 ++ IEnd d :: before) during after tr2).
  { split; [|split; [apply Nat.eqb_refl|exact Hend2]]. rewrite Htr. rewrite <- app_assoc. cbn [app]. rewrite <- app_assoc. reflexivity. }
  destruct (published_once _ _ _ _ _ _ _ _ f Hr2 (Ht2 g) Hh2 Hopg Hv) as (y & d1 & d2 & Hm & Hy & Hb & Ha).
  exists (message_of q). split; [repeat split|]. rewrite Hb. destruct (matches_dec f (pb_topic q)) as [_|N]; [|contradiction].
  assert (Hnode : node_at (levels f) (tree y) <> None).
  { apply mruns_app in Hy. destruct Hy as (z & Hz & Hy). eapply node_runs; [exact Hy|]. apply in_split in Hn. destruct Hn as (v & w & ->). change (pre2 ++ IStart e :: (v ++ IStep d (OSub f n) :: w) ++ IEnd d :: before) with (pre2 ++ [IStart e] ++ (v ++ IStep d (OSub f n) :: w) ++ IEnd d :: before) in Hz. rewrite <- (app_assoc v) in Hz. rewrite app_assoc, app_assoc in Hz.
    eapply sub_node. exact Hz. }
  destruct (node_at (levels f) (tree y)); [reflexivity|congruence].
Qed.
Print Assumptions C111_published_reaches.

(** ** Concrete cases *)
(** After the schedule of C87, the broker is stopped. In its next life the client of "a" comes back, and is cut off while the
    CONNECT of "b" is handled too; in the one after it comes back again, while "b" subscribes. *)
Definition ex_store1 : mem_store := w_store (cn_world (fst (mexec ex_open ex_moves conf_new))).
Definition ex_second : list move := starts [ex_first 4 (ex_connect "a" false); ex_first 5 (ex_connect "b" true)] ++ rounds 16 [4; 5]%nat.
Definition ex_trace_b := snd (mexec ex_open ex_second (conf_on ex_store1)).
Definition ex_store2 : mem_store := w_store (cn_world (fst (mexec ex_open ex_second (conf_on ex_store1)))).
Definition ex_third : list move :=
  starts [ex_first 8 (ex_connect "b" true); ex_first 7 (ex_connect "a" false)] ++ rounds 18 [8; 7]%nat ++ starts [ex_sub 8 "x/y"] ++ rounds 60 [7; 8]%nat.
Definition ex_trace_c := snd (mexec ex_open ex_third (conf_on ex_store2)).
Lemma ex_goes_on : goes_on ex_open (str "a") (no_unsubscribe (str "x/+")) ex_store1 ex_store2 /\ goes_on ex_open (str "a") (no_ack (str "a") 5) ex_store1 ex_store2.
Proof.
  assert (Ho : only_returns ex_open (str "a") 4 ex_trace_b).
  { split.
    - apply owns_comers. assert (H : comers ex_trace_b = [(4%nat, str "a", str "uuid"); (5%nat, str "b", str "uuid")]) by (vm_compute; reflexivity). rewrite H.
      intros d i u [E|[E|[]]]; injection E as <- <- <-; (split; [discriminate|]); [left; auto|right; split; discriminate].
    - right. exists (ex_connect "a" false), (str "uuid"), []. split; [vm_compute; reflexivity|]. split; [left; reflexivity|]. split; [reflexivity|]. split; [reflexivity|]. intros ? ? ? []. }
  assert (He : events_of 4 ex_trace_b = [ex_first 4 (ex_connect "a" false)]) by (vm_compute; reflexivity).
  assert (Ht : forall c, Forall texts (events_of c ex_trace_b)) by (apply texts_all; vm_compute; reflexivity).
  split; (eapply (go_more _ _ _ _ ex_store1 ex_trace_b (fst (mexec ex_open ex_second (conf_on ex_store1))) 4); [constructor|apply mexec_runs|exact Ht|exact Ho|]).
  - intros p Hp. rewrite He in Hp. destruct Hp as [Hp|[]]. discriminate.
  - split; [|apply not_reused; vm_compute; reflexivity]. intros a Ha. rewrite He in Ha. destruct Ha as [[Ha|[]]|[Ha|[]]]; discriminate.
Qed.
Example C110_ex : goes_on ex_open (str "a") (no_unsubscribe (str "x/+")) ex_store1 ex_store2 /\ goes_on ex_open (str "a") (no_ack (str "a") 5) ex_store1 ex_store2
  /\ mruns ex_open (conf_on ex_store2) ex_trace_c (fst (mexec ex_open ex_third (conf_on ex_store2))) /\ (forall d, Forall texts (events_of d ex_trace_c))
  /\ returns ex_open (str "a") 7 (ex_first 7 (ex_connect "a" false)) (part1 7 0 ex_trace_c) (part2 7 0 ex_trace_c) (part3 7 0 ex_trace_c) ex_trace_c
  /\ steps_of 5 ex_trace_b <> [] /\ ~ In (IEnd 5) ex_trace_b /\ steps_of 8 (part2 7 0 ex_trace_c) <> [] /\ map (fun o => match o with Sent _ (Publish q) => pb_packet_id q | _ => None end) (outputs_of 7 (part2 7 0 ex_trace_c)) = [None; Some 5; Some 6].
Proof.
  split; [apply ex_goes_on|]. split; [apply ex_goes_on|]. split; [apply mexec_runs|]. split; [apply texts_all; vm_compute; reflexivity|].
  split; [|split; [vm_compute; discriminate|split; [apply not_ended; vm_compute; reflexivity|split; [vm_compute; discriminate|vm_compute; reflexivity]]]].
  exists (ex_connect "a" false), (str "uuid"). split; [reflexivity|]. split; [apply handled_parts; vm_compute; reflexivity|]. split; [vm_compute; reflexivity|]. split; [left; reflexivity|].
  split; [reflexivity|]. split; [reflexivity|].
  apply owns_comers. assert (H : comers ex_trace_c = [(8%nat, str "b", str "uuid"); (7%nat, str "a", str "uuid")]) by (vm_compute; reflexivity). rewrite H.
  intros d i u [E|[E|[]]]; injection E as <- <- <-; (split; [discriminate|]); [right; split; discriminate|left; auto].
Qed.
(** After the stop of C108, only "s" comes back in one life; in the next one "a" comes back too. *)
Definition ex_wstore1 : mem_store := w_store (cn_world (ex_sx 0)).
Definition ex_wsecond : list move := starts [ex_first 2 (ex_connect "s" false)] ++ rounds 40 [2]%nat.
Definition ex_wtrace_b := snd (mexec ex_open ex_wsecond (conf_on ex_wstore1)).
Definition ex_wstore2 : mem_store := w_store (cn_world (fst (mexec ex_open ex_wsecond (conf_on ex_wstore1)))).
Definition ex_wthird : list move := starts [ex_first 2 (ex_connect "s" false); ex_first 1 (ex_connect "a" false)] ++ rounds 60 [1; 2]%nat.
Definition ex_wtrace_c := snd (mexec ex_open ex_wthird (conf_on ex_wstore2)).
Example C110_will_ex : goes_on ex_open (str "a") no_event ex_wstore1 ex_wstore2
  /\ mruns ex_open (conf_on ex_wstore2) ex_wtrace_c (fst (mexec ex_open ex_wthird (conf_on ex_wstore2))) /\ (forall d, Forall texts (events_of d ex_wtrace_c))
  /\ returns ex_open (str "a") 1 (ex_first 1 (ex_connect "a" false)) (part1 1 0 ex_wtrace_c) (part2 1 0 ex_wtrace_c) (part3 1 0 ex_wtrace_c) ex_wtrace_c.
Proof.
  split; [|split; [apply mexec_runs|split; [apply texts_all; vm_compute; reflexivity|]]].
  - eapply (go_more _ _ _ _ ex_wstore1 ex_wtrace_b (fst (mexec ex_open ex_wsecond (conf_on ex_wstore1))) 1); [constructor|apply mexec_runs|apply texts_all; vm_compute; reflexivity| |vm_compute; reflexivity].
    split; [|left; vm_compute; reflexivity].
    apply owns_comers. assert (H : comers ex_wtrace_b = [(2%nat, str "s", str "uuid")]) by (vm_compute; reflexivity). rewrite H.
    intros d i u [E|[]]; injection E as <- <- <-; (split; [discriminate|]); right; split; discriminate.
  - exists (ex_connect "a" false), (str "uuid"). split; [reflexivity|]. split; [apply handled_parts; vm_compute; reflexivity|]. split; [vm_compute; reflexivity|]. split; [left; reflexivity|].
    split; [reflexivity|]. split; [reflexivity|]. apply ex_st_owns. vm_compute. reflexivity.
Qed.
(** In the third life of C110, after its return, "b" publishes two messages that "a" polls while "b" does something else. *)
Definition ex_fourth : list move :=
  ex_third ++ starts [ex_pub 8 AtMostOnce None "x/y" "v"] ++ rounds 40 [8]%nat ++
  starts [ex_pub 8 AtLeastOnce (Some 9) "x/z" "w"; EOut 7 (str "x/+")] ++ rounds 40 [8; 7]%nat ++ starts [EOut 7 (str "x/+"); ex_sub 8 "x/z"] ++ rounds 40 [8; 7]%nat.
Definition ex_trace_d := snd (mexec ex_open ex_fourth (conf_on ex_store2)).
Example C111_ex : mruns ex_open (conf_on ex_store2) ex_trace_d (fst (mexec ex_open ex_fourth (conf_on ex_store2))) /\ (forall d, Forall texts (events_of d ex_trace_d))
  /\ returns ex_open (str "a") 7 (ex_first 7 (ex_connect "a" false)) (part1 7 0 ex_trace_d) (part2 7 0 ex_trace_d) (part3 7 0 ex_trace_d) ex_trace_d
  /\ keeps_subscription 7 (str "x/+") (part3 7 0 ex_trace_d)
  /\ length (routed (str "x/+") (part3 7 0 ex_trace_d)) = 2%nat /\ length (deliveries 7 (str "x/+") (outputs_of 7 (part3 7 0 ex_trace_d))) = 2%nat
  /\ handled 8 (ex_pub 8 AtLeastOnce (Some 9) "x/z" "w") (part1 8 3 ex_trace_d) (part2 8 3 ex_trace_d) (part3 8 3 ex_trace_d) ex_trace_d
  /\ opened 8 (part1 8 3 ex_trace_d).
Proof.
  split; [apply mexec_runs|]. split; [apply texts_all; vm_compute; reflexivity|]. split.
  { exists (ex_connect "a" false), (str "uuid"). split; [reflexivity|]. split; [apply handled_parts; vm_compute; reflexivity|]. split; [vm_compute; reflexivity|]. split; [left; reflexivity|].
    split; [reflexivity|]. split; [reflexivity|].
    apply owns_comers. assert (H : comers ex_trace_d = [(8%nat, str "b", str "uuid"); (7%nat, str "a", str "uuid")]) by (vm_compute; reflexivity). rewrite H.
    intros d i u [E|[E|[]]]; injection E as <- <- <-; (split; [discriminate|]); [right; split; discriminate|left; auto]. }
  split; [|split; [vm_compute; reflexivity|split; [vm_compute; reflexivity|split; [apply handled_parts; vm_compute; reflexivity|vm_compute; reflexivity]]]].
  assert (Hp : all_events (part3 7 0 ex_trace_d) = [ex_pub 8 AtMostOnce None "x/y" "v"; ex_pub 8 AtLeastOnce (Some 9) "x/z" "w"; EOut 7 (str "x/+"); EOut 7 (str "x/+"); ex_sub 8 "x/z"]) by (vm_compute; reflexivity).
  intros e Hi. apply in_events in Hi. rewrite Hp in Hi. clear - Hi. simpl in Hi.
  repeat (destruct Hi as [<-|Hi]; [repeat split; intros; discriminate|]). contradiction.
Qed.
