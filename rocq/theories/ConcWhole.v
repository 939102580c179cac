(** Lemmas for C114: what a connection publishes while handlers are interleaved, and where messages come from. *)
From Verif Require Import Base Utf8 Codec Str SpecCodec Packets Frame Tac Maps Topic SpecTopic TopicTree TopicFacts TreeFacts Storage Broker SpecBroker BrokerFacts Session Server SpecServer
  SessionFacts ServerFacts CodecFacts SpecOutput OutputFacts Network SpecNetwork Conc SpecConc ConcFacts ConcLocks ConcRoute ConcOwn ConcProv SpecLives ConcLives
  ConcNet SpecConcNet ConcNetFacts SpecConcOutput ConcOutput.
Local Open Scope list_scope.

(** While a handler of a connection is at work no other is started on it. *)
Lemma busy_starts cfg x mid x' c : mruns cfg x mid x' -> ~ idle c x -> ~ In (IEnd c) mid -> events_of c mid = [] /\ started c mid = [].
Proof.
  induction 1 as [x|x m x1 i tr x2 Hs _ IH]; intros Hn He; [split; reflexivity|]. apply mstep_inv in Hs.
  assert (Hgo : ~ idle c x1 -> events_of c [i] = [] -> started c [i] = [] -> events_of c (i :: tr) = [] /\ started c (i :: tr) = []).
  { intros H1 H2 H3. destruct IH as [A B]; [exact H1|intros H; apply He; right; exact H|].
    change (i :: tr) with ([i] ++ tr). rewrite events_app, started_app, A, B, H2, H3. split; reflexivity. }
  destruct Hs as [(e & -> & -> & Hne & Hie & ->)|[(d & -> & -> & Hk & ->)|(d & k0 & o & k1 & -> & -> & Hk & _ & _ & ->)]].
  - assert (Hd : event_conn e <> c) by (intros <-; contradiction).
    assert (Hf : event_of c e = false) by (rewrite event_of_conn by exact Hne; apply Nat.eqb_neq, Hd).
    apply Hgo; [unfold idle in *; cbn [cn_tasks]; rewrite tasks_other by exact Hd; exact Hn|unfold events_of; cbn; rewrite Hf; reflexivity|apply started_other, Hf].
  - assert (Hd : d <> c) by (intros ->; apply He; left; reflexivity).
    apply Hgo; [unfold idle in *; cbn [cn_tasks]; rewrite tasks_del by exact Hd; exact Hn|reflexivity|reflexivity].
  - apply Hgo; [|reflexivity|reflexivity]. unfold idle in *. cbn [cn_tasks]. destruct (Nat.eq_dec d c) as [->|Hd].
    + rewrite (aget_put_same _ nateqb_spec). discriminate.
    + rewrite tasks_other by exact Hd. exact Hn.
Qed.

Lemma routed_by_sub c f tr : subseq (routed_by c f tr) (routed f tr).
Proof.
  induction tr as [|i tr IH]; [constructor|]. change (i :: tr) with ([i] ++ tr). rewrite routed_by_app, routed_app. apply subseq_app; [|exact IH].
  destruct i as [e|d o|d]; try constructor. unfold routed_by, steps_of, routed. cbn [flat_map]. destruct (Nat.eqb d c); cbn [flat_map app]; rewrite ?app_nil_r; [apply subseq_refl|apply subseq_nil].
Qed.
Lemma subseq_front {T} (a b c : list T) : subseq a c -> subseq a (b ++ c).
Proof. induction b as [|x b IH]; intros H; cbn [app]; [exact H|]. constructor. auto. Qed.

Definition pubs (ks : list packet) : list publish_packet := flat_map (fun k => match k with Publish b => [b] | _ => [] end) ks.
Definition on_topic (t : bytes) (b : publish_packet) : bool := bytes_eqb (pb_topic b) t.

(** Everything that connection [a] publishes to [t] after a subscription to a matching filter goes into its queue, in order. *)
Lemma published_routed {st0} cfg tr x a f t : mruns cfg (conf_on st0) tr x -> over_network tr -> idle a x ->
  (forall pre e post, tr = pre ++ IStart e :: post -> event_of a e = true -> match e with EFirst _ _ _ _ => True | _ => opened a pre end) ->
  (forall b u y, ~ In (IStart (EFirst a (Some (Publish b)) u y)) tr) -> topic_name t -> matches f t ->
  forall n post pre, (length post <= n)%nat -> tr = pre ++ post -> (exists d m, In (IStep d (OSub f m)) pre) ->
  subseq (map message_of (filter (on_topic t) (pubs (started a post)))) (routed_by a f post).
Proof.
  intros Hr Hnet Hi Hop Hfirst Ht Hm. induction n as [|n IH]; intros post pre Hl E Hsub.
  { destruct post; [constructor|cbn in Hl; lia]. }
  destruct post as [|i post]; [constructor|]. cbn [length] in Hl.
  assert (Hskip : filter (on_topic t) (pubs (started a [i])) = [] ->
    subseq (map message_of (filter (on_topic t) (pubs (started a (i :: post))))) (routed_by a f (i :: post))).
  { intros Hz. rewrite started_cons. unfold pubs. rewrite flat_map_app, filter_app. fold (pubs (started a [i])) (pubs (started a post)). rewrite Hz. cbn [app].
    change (i :: post) with ([i] ++ post) at 1. rewrite routed_by_app. apply subseq_front. apply (IH post (pre ++ [i])); [lia|rewrite <- app_assoc; exact E|].
    destruct Hsub as (d & m & Hs). exists d, m. apply in_or_app. auto. }
  destruct i as [e|d o|d]; try (apply Hskip; reflexivity).
  destruct (event_of a e) eqn:He; [|apply Hskip; rewrite started_other by exact He; reflexivity].
  destruct e as [d [k|] u y|d k|d g|d|d|]; try (apply Hskip; reflexivity).
  - apply Hskip. cbn in He. cbn. rewrite He. destruct k; try reflexivity. exfalso. apply Nat.eqb_eq in He. subst d. eapply Hfirst. rewrite E. apply in_or_app. right. left. reflexivity.
  - cbn in He. apply Nat.eqb_eq in He. subst d. destruct (match k with Publish b => on_topic t b | _ => false end) eqn:Eb.
    2:{ apply Hskip. cbn. rewrite Nat.eqb_refl. destruct k; try reflexivity. cbn in Eb |- *. rewrite Eb. reflexivity. }
    destruct k; try discriminate. unfold on_topic in Eb. apply bytes_eqb_eq in Eb.
    pose proof (Hop _ _ _ E) as Ho. cbn in Ho. rewrite Nat.eqb_refl in Ho. specialize (Ho eq_refl).
    pose proof Hr as Hx. rewrite E in Hx. apply start_at in Hx. destruct Hx as (z & _ & _ & _ & Hx). cbn [event_conn] in Hx.
    match type of Hx with mruns _ ?z1 _ _ => assert (Hb : ~ idle a z1) by (unfold idle; cbn [cn_tasks]; rewrite (aget_put_same _ nateqb_spec); discriminate) end.
    pose proof Hx as Hx'. apply (has_ended _ _ _ _ a) in Hx'; [|exact Hb|exact Hi]. destruct Hx' as (mid & post' & -> & Hmid).
    apply mruns_app in Hx. destruct Hx as (z2 & Hz & _). destruct (busy_starts _ _ _ _ _ Hz Hb Hmid) as [_ Hst].
    assert (Hh : SpecConc.handled a (EPacket a (Publish b)) pre mid post' tr) by (split; [exact E|split; [apply Nat.eqb_refl|exact Hmid]]).
    assert (Hv : valid_publish b).
    { assert (Hrc : received (Publish b)) by (apply (Hnet (EPacket a (Publish b))); rewrite E; apply in_or_app; right; left; reflexivity).
      apply received_publish in Hrc. destruct Hrc as [Hrc _]. split; [rewrite Eb; exact Ht|].
      destruct (pb_qos b), (pb_packet_id b); try contradiction; [left; reflexivity|right; split; discriminate..]. }
    destruct (published_once _ _ _ _ _ _ _ _ f Hr (network_texts _ Hnet a) Hh Ho Hv) as (y & mid1 & mid2 & -> & Hy & Hrb & _).
    assert (Hnode : is_some (node_at (levels f) (tree y)) = true).
    { apply mruns_app in Hy. destruct Hy as (w & Hw & Hy). pose proof (node_runs _ _ _ _ (levels f) Hy) as Hn.
      destruct Hsub as (d & m & Hs). apply in_split in Hs. destruct Hs as (p1 & p2 & ->). specialize (Hn (sub_node _ _ _ _ _ _ _ _ Hw)).
      destruct (node_at (levels f) (tree y)); [reflexivity|congruence]. }
    rewrite Eb in Hrb. destruct (matches_dec f t) as [_|Hc]; [|contradiction]. rewrite Hnode in Hrb.
    rewrite started_cons, started_app, Hst, started_cons. cbn [started flat_map]. rewrite Nat.eqb_refl. cbn [app].
    change (flat_map _ post') with (started a post'). unfold pubs at 1. cbn [flat_map app filter]. fold (pubs (started a post')). unfold on_topic at 1. rewrite Eb, bytes_eqb_refl. cbn [map].
    change (IStart (EPacket a (Publish b)) :: (mid1 ++ mid2) ++ IEnd a :: post') with ([IStart (EPacket a (Publish b))] ++ (mid1 ++ mid2) ++ [IEnd a] ++ post').
    rewrite routed_by_app, (routed_by_app a f (mid1 ++ mid2)), (routed_by_app a f [IEnd a]), Hrb.
    change (routed_by a f [IStart (EPacket a (Publish b))]) with (@nil message). change (routed_by a f [IEnd a]) with (@nil message). cbn [app]. constructor.
    apply (IH post' (pre ++ IStart (EPacket a (Publish b)) :: (mid1 ++ mid2) ++ [IEnd a])).
    + cbn in Hl. rewrite app_length in Hl. cbn in Hl. lia.
    + rewrite E, <- app_assoc. cbn [app]. rewrite <- !app_assoc. cbn [app]. rewrite <- !app_assoc. reflexivity.
    + destruct Hsub as (d & m & Hs). exists d, m. apply in_or_app. auto.
Qed.

(** Messages that are routed, and retained messages that are found, were sent by somebody. *)
Lemma step_msg cfg trs st pre c o post x : lives cfg trs st -> mruns cfg (conf_on st) (pre ++ IStep c o :: post) x -> over_network pre ->
  match o with
  | OSend p m => sent_in cfg (trs ++ [pre]) m
  | OStore (GetRetained f) (RMessages l) => Forall (sent_in cfg (trs ++ [pre])) l
  | _ => True
  end.
Proof.
  intros Hl Hr Hn. destruct (step_at _ _ _ _ _ _ _ Hr) as (y & k & k1 & H1 & H2 & H3 & _).
  assert (Hp : prov_inv cfg (past_of cfg trs) pre y).
  { apply (@prov_runs st cfg _ _ _ _ H1 []); [constructor|apply network_texts, Hn|apply prov_conf_on, lives_good, Hl]. }
  pose proof (pi_tasks _ _ _ _ Hp _ _ H2) as Hk. destruct k; cbn [Conc.next] in H3; try discriminate.
  all: try (injection H3 as <- _; exact I).
  - destruct (nth_error _ _); [|discriminate]. destruct (f _ _). injection H3 as <- _. exact I.
  - injection H3 as <- _. destruct Hk as [[Hk _] _]. apply msg_past, Hk.
  - injection H3 as <- _. destruct Hk as [Hk _]. destruct (store_good cfg (past_of cfg trs) pre (w_store (cn_world y)) _ (pi_store _ _ _ _ Hp) Hk) as [_ Hg].
    destruct o0; try exact I. cbn [mem_step fst] in *. cbn [res_good] in Hg. revert Hg. apply Forall_impl. intros m [Hm _]. apply msg_past, Hm.
Qed.
Lemma sent_in_more cfg trs a b m : sent_in cfg (trs ++ [a]) m -> sent_in cfg (trs ++ [a ++ b]) m.
Proof.
  intros (tr & Hin & Hs). apply in_app_or in Hin. destruct Hin as [Hin|[<-|[]]]; [exists tr; split; [apply in_or_app; auto|exact Hs]|].
  exists (a ++ b). split; [apply in_or_app; right; left; reflexivity|apply sourced_app, Hs].
Qed.
Lemma routed_in f m tr : In m (routed f tr) -> exists d p, In (IStep d (OSend p m)) tr.
Proof.
  unfold routed. intros H. apply in_flat_map in H. destruct H as (i & Hi & H). destruct i as [|d o|]; try contradiction. destruct o; try contradiction. cbn in H.
  destruct (list_eq_dec _ _ _); [|contradiction]. destruct H as [<-|[]]. eauto.
Qed.
Lemma over_network_prefix a b : over_network (a ++ b) -> over_network a.
Proof. intros H e He. apply H, in_or_app. auto. Qed.
Lemma routed_msg cfg trs st tr x f : lives cfg trs st -> mruns cfg (conf_on st) tr x -> over_network tr -> Forall (sent_in cfg (trs ++ [tr])) (routed f tr).
Proof.
  intros Hl Hr Hn. apply Forall_forall. intros m Hm. apply routed_in in Hm. destruct Hm as (d & p & Hin). apply in_split in Hin. destruct Hin as (pre & post & ->).
  apply sent_in_more. exact (step_msg _ _ _ _ _ _ _ _ Hl Hr (over_network_prefix _ _ Hn)).
Qed.
Lemma found_msg cfg trs st tr x d f l : lives cfg trs st -> mruns cfg (conf_on st) tr x -> over_network tr ->
  In (IStep d (OStore (GetRetained f) (RMessages l))) tr -> Forall (sent_in cfg (trs ++ [tr])) l.
Proof.
  intros Hl Hr Hn Hin. apply in_split in Hin. destruct Hin as (pre & post & ->).
  pose proof (step_msg _ _ _ _ _ _ _ _ Hl Hr (over_network_prefix _ _ Hn)) as H. cbn in H. revert H. apply Forall_impl. intros m. apply sent_in_more.
Qed.
Lemma sent_in_qos cfg trs m : Forall over_network trs -> sent_in cfg trs m -> mg_qos m <> QInvalid.
Proof. intros H (tr & Hin & Hs). rewrite Forall_forall in H. apply (sourced_fields _ _ _ (H _ Hin) Hs). Qed.
