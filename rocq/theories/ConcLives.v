(** Where the entries of the store come from when the broker is stopped and started again. *)
From Verif Require Import Base Utf8 Codec SpecCodec Tac Maps CodecFacts Topic SpecTopic TopicFacts Property PacketProps Packets
  TopicTree TreeFacts Storage SpecStorage StorageFacts Broker SpecBroker BrokerFacts Auth Session Server SpecServer SessionFacts ServerFacts
  Conc SpecConc ConcFacts ConcLocks ConcRoute ConcOwn ConcProv SpecLives.

Lemma joined_trans trs x y z : joined trs x y -> joined trs y z -> joined trs x z.
Proof. intros H1 H2. induction H2 as [|y n c m d id H IH Hn Hm]; [exact H1|]. eapply jn_step; [apply IH, H1|exact Hn|exact Hm]. Qed.
Lemma bears_app trs l n c id : bears trs n c id -> bears (trs ++ l) n c id.
Proof. intros (tr & H & Hn). exists tr. split; [|exact Hn]. rewrite nth_error_app1; [exact H|]. apply nth_error_Some. congruence. Qed.
Lemma asked_in_app trs l n c f : asked_in trs n c f -> asked_in (trs ++ l) n c f.
Proof. intros (tr & H & Hn). exists tr. split; [|exact Hn]. rewrite nth_error_app1; [exact H|]. apply nth_error_Some. congruence. Qed.
Lemma joined_app trs l x y : joined trs x y -> joined (trs ++ l) x y.
Proof. induction 1; [constructor|]. eapply jn_step; eauto using bears_app. Qed.
Lemma last_nth {T} (l : list T) x : nth_error (l ++ [x]) (length l) = Some x.
Proof. rewrite nth_error_app2 by lia. rewrite Nat.sub_diag. reflexivity. Qed.
Lemma linked_joined trs tr c d : linked tr c d -> joined (trs ++ [tr]) (length trs, c) (length trs, d).
Proof. induction 1 as [|c d e id H IH Hd He]; [constructor|]. eapply jn_step; [exact IH| |]; exists tr; (split; [apply last_nth|eassumption]). Qed.

(** The filters that an identifier has asked for. *)
Definition asked_as (trs : list (list item)) (id f : bytes) : Prop :=
  exists n c, bears trs n c id /\ exists m d, joined trs (n, c) (m, d) /\ asked_in trs m d f.
Definition past_of (cfg : config) (trs : list (list item)) : past.
Proof.
  refine (Mk_past (sent_in cfg trs) (asked_as trs) _ _).
  - intros r m (tr & Hin & H). exists tr. split; [exact Hin|apply sourced_retain, H].
  - intros id f (n & c & _ & m & d & _ & tr & _ & pre & post & p & _ & _ & _ & H). exact H.
Defined.
Lemma asked_as_app trs l id f : asked_as trs id f -> asked_as (trs ++ l) id f.
Proof. intros (n & c & H1 & m & d & H2 & H3). exists n, c. split; [apply bears_app, H1|]. exists m, d. split; [apply joined_app, H2|apply asked_in_app, H3]. Qed.

Lemma msg_past cfg trs tr m : msg cfg (past_of cfg trs) tr m -> sent_in cfg (trs ++ [tr]) m.
Proof.
  intros [(t & Hin & H)|H]; [exists t|exists tr]; (split; [apply in_or_app; cbn [In]; auto|exact H]).
Qed.
Lemma wants_past cfg trs tr f c : wants (past_of cfg trs) tr f c ->
  exists m d, joined (trs ++ [tr]) (length trs, c) (m, d) /\ asked_in (trs ++ [tr]) m d f.
Proof.
  intros (e & Hl & [Ha|(id & Hn & n & b & H1 & m & d & H2 & H3)]).
  - exists (length trs), e. split; [apply linked_joined, Hl|]. exists tr. split; [apply last_nth|exact Ha].
  - exists m, d. split; [|apply asked_in_app, H3]. eapply joined_trans; [apply linked_joined, Hl|].
    eapply joined_trans; [|apply joined_app, H2]. eapply jn_step; [constructor| |apply bears_app, H1]. exists tr. split; [apply last_nth|exact Hn].
Qed.
Lemma of_name_past cfg trs tr f id : of_name (past_of cfg trs) tr f id -> asked_as (trs ++ [tr]) id f.
Proof.
  intros [H|(c & Hc & Hw)]; [apply asked_as_app, H|]. exists (length trs), c. split; [exists tr; split; [apply last_nth|exact Hc]|]. eapply wants_past, Hw.
Qed.
Lemma lives_good cfg trs st : lives cfg trs st -> stgood cfg (past_of cfg trs) [] st.
Proof.
  induction 1 as [|trs st tr x Hl IH Hr Ht]; [apply stgood_new|].
  assert (Hp : prov_inv cfg (past_of cfg trs) tr x) by (apply (@prov_runs st cfg _ _ _ _ Hr []); [constructor|exact Ht|apply prov_conf_on, IH]).
  destruct (pi_store _ _ _ _ Hp) as [H1 H2 H3 H4]. constructor.
  - intros t y Hy. destruct (H1 t y Hy) as [Hm Hto]. split; [left; apply msg_past, Hm|exact Hto].
  - intros id y Hy. left. apply msg_past. eauto.
  - intros id s Hs. eapply Forall_impl; [|eapply H3, Hs]. intros f Hf. left. apply of_name_past in Hf. exact Hf.
  - intros id pid y Hy. destruct (H4 _ _ _ Hy) as (Hn & m & Hm & Hd). split; [left; apply (of_name_past _ _ _ _ _ Hn)|]. exists m. split; [left; apply msg_past, Hm|exact Hd].
Qed.
Lemma lives_sane cfg trs st : lives cfg trs st -> Sane cfg st.
Proof. intros H. eexists. apply (lives_good _ _ _ H). Qed.
