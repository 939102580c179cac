(** Properties C38-C47 and C64: connections, sessions and wills over whole histories.
    Every theorem is followed by a concrete case meeting its hypotheses. *)
From Coq Require Import String.
From Verif Require Import Base Utf8 Codec SpecCodec Tac CodecFacts Str Maps Topic SpecTopic TopicFacts Property PacketProps Packets
  TopicTree TreeFacts Storage SpecStorage StorageFacts Broker SpecBroker BrokerFacts Auth Session Server SpecServer SessionFacts ServerFacts
  HandlerFacts HistoryFacts ProvenanceFacts WorldFacts DeliveryFacts StoreFacts ConnectFacts ResumeFacts Examples.

(** ** C38 *)
(** A CONNECT with credentials that are not accepted changes nothing at all. *)
Theorem C38_refused cfg w c k u a : not_served w c -> ~ accepts cfg k ->
  step cfg w (EFirst c (Some (Connect k)) u a)
  = (w, [Sent c (ConnAck (Mk_connack_packet (c_protocol_version k) false BadUserNameOrPassword None)); Closed c]).
Proof. intros Hn Ha. apply connect_reject; auto. apply authenticated_not, Ha. Qed.
Print Assumptions C38_refused.
(** An accepted one is answered with success and served. *)
Theorem C38_accepted cfg w c k u w' o : reachable cfg w -> not_served w c -> accepts cfg k ->
  step cfg w (EFirst c (Some (Connect k)) u true) = (w', o) ->
  exists i s x rest, serves w' c i s /\ o = Sent c (ConnAck x) :: rest /\ ca_reason_code x = Success.
Proof.
  intros Hr Hn Ha H. apply authenticated_iff in Ha. pose proof (reachable_wf cfg w Hr) as Hwf.
  destruct (connect_accept _ _ _ _ _ _ _ Hwf Hn Ha H) as (i & subs & wl & infl & s & s1 & Hac).
  destruct Hac as [_ _ Ho Hc _ Hs _ _ _].
  assert (Hb : exists x, fst (begin u (resumes k w) s) = ConnAck x /\ ca_reason_code x = Success).
  { unfold begin. destruct (cl_client_id _); simpl; eexists; split; reflexivity. }
  destruct Hb as (x & Hx & Hx2). rewrite Hx in Ho. do 4 eexists. split; [|split; [exact Ho|exact Hx2]].
  split; [|exact Hs]. rewrite Hc. apply aget_put_same, nateqb_spec.
Qed.
Print Assumptions C38_accepted.
(** Whenever a connection is served, it sent a CONNECT whose credentials were accepted. *)
Theorem C38_served_was_accepted cfg es c : ~ not_served (state cfg es) c ->
  exists k, opened_by cfg es c k /\ accepts cfg k.
Proof.
  intros H. unfold not_served in H. destruct (aget Nat.eqb c (w_conns (state cfg es))) as [i|] eqn:E; [|congruence].
  destruct (owned_exists cfg es) as [own [_ O2 _]]. destruct (O2 c i E) as (k & Hk & _). exists k. split; auto.
  destruct Hk as (es1 & u & es2 & _ & _ & Ha & _). exact Ha.
Qed.
Print Assumptions C38_served_was_accepted.
(** With authentication required: what a served connection presented, in full. *)
Theorem C38_served_has_credentials cfg es c : sv_require_auth cfg = true -> ~ not_served (state cfg es) c ->
  exists k u p v, opened_by cfg es c k /\ cl_user_name (c_payload k) = Some u /\ cl_password (c_payload k) = Some p
    /\ sv_validator cfg = Some v /\ v u p = true.
Proof.
  intros Hr H. destruct (C38_served_was_accepted cfg es c H) as (k & Hk & [Ha|(u & p & v & Ha)]); [congruence|].
  exists k, u, p, v. tauto.
Qed.
Print Assumptions C38_served_has_credentials.
Definition ex_closed : config := Mk_config true (Some (fun u p => bytes_eqb u (str "bob") && bytes_eqb p (str "pw"))) None.
Definition ex_login (id user pw : string) : connect_packet :=
  Mk_connect_packet V5 (Mk_connect_flags true true false AtMostOnce false true) 60 None
    (Mk_connect_payload (str id) None None None (Some (str user)) (Some (str pw))).
Example C38_ex : ~ not_served (state ex_closed [ex_first 1 (ex_login "a" "bob" "pw")]) 1
  /\ accepts ex_closed (ex_login "a" "bob" "pw")
  /\ ~ accepts ex_closed (ex_login "a" "bob" "no") /\ ~ accepts ex_closed (ex_connect "a" true)
  /\ snd (run ex_closed [ex_first 1 (ex_login "a" "bob" "no")] world_new)
     = [Sent 1 (ConnAck (Mk_connack_packet V5 false BadUserNameOrPassword None)); Closed 1].
Proof.
  split; [vm_compute; discriminate|]. split; [apply authenticated_iff; reflexivity|].
  split; [rewrite <- authenticated_iff; discriminate|]. split; [rewrite <- authenticated_iff; discriminate|]. vm_compute. reflexivity.
Qed.

(** ** C39 *)
Definition not_of (c : nat) (e : event) : bool := negb (event_of c e).
Lemma others_step cfg w c e w' o : not_served w c -> event_of c e = false -> step cfg w e = (w', o) ->
  not_served w' c /\ Forall (fun x => output_of c x = false) o.
Proof.
  intros Hn He H. assert (Hne : forall k u a, e <> EFirst c k u a).
  { intros k u a ->. simpl in He. rewrite Nat.eqb_refl in He. discriminate. }
  split.
  - destruct (step_conns _ _ _ _ _ c H Hne) as [Hc|Hc]; [unfold not_served in *; congruence|exact Hc].
  - destruct e as [d k u a|d k|d f|d|d|]; simpl in He, H.
    + destruct (is_some _); [inv H; auto|]. destruct k as [[]|]; try (inv H; repeat constructor; exact He).
      unfold connect_step in H. destruct (negb _); [inv H; repeat constructor; exact He|].
      destruct (start_session _ _ _ _) as [[ack r] w1]. destruct r as [r|]; [|inv H; repeat constructor; exact He].
      destruct (nth_error _ _); [|inv H; repeat constructor; exact He].
      destruct (restore_subscriptions _ _ _). inv H. constructor; [exact He|].
      apply Forall_forall. intros x Hx. apply in_map_iff in Hx. destruct Hx as (? & <- & _). exact He.
    + destruct (aget Nat.eqb d (w_conns w)); [|inv H; auto]. destruct (nth_error _ _) as [s|]; [|inv H; auto].
      assert (Hp : forall k, packet_step cfg d n s k w = (w', o) -> Forall (fun x => output_of c x = false) o).
      { clear H. intros q H. unfold packet_step in H. destruct (process_incoming _ _ _ _) as [[r s1] b]. destruct r as [[x|]|er|]; inv H; repeat constructor; exact He. }
      destruct k; try (eapply Hp; exact H). inv H. repeat constructor. exact He.
    + destruct (aget Nat.eqb d (w_conns w)); [|inv H; auto]. destruct (nth_error _ _) as [s|]; [|inv H; auto].
      unfold out_step in H. destruct (process_outgoing _ _ _) as [[r s1]|]; [|inv H; auto]. destruct r; inv H; repeat constructor; exact He.
    + destruct (aget Nat.eqb d (w_conns w)); [|inv H; auto]. destruct (nth_error _ _) as [s|]; [|inv H; auto]. inv H. repeat constructor. exact He.
    + destruct (aget Nat.eqb d (w_conns w)); [|inv H; auto]. destruct (nth_error _ _) as [s|]; [|inv H; auto]. inv H. repeat constructor. exact He.
    + inv H. apply Forall_forall. intros x Hx. apply in_map_iff in Hx. destruct Hx as ([d i] & <- & Hin). simpl.
      destruct (Nat.eqb d c) eqn:Ed; auto. apply Nat.eqb_eq in Ed. subst d. exfalso.
      revert Hin. apply (aget_none Nat.eqb nateqb_spec) in Hn. intros Hin. apply Hn. apply in_map_iff. exists (c, i). auto.
Qed.
(** Whatever a connection that has not sent a CONNECT does, in whatever order with the
    others: the broker ends in the same state and answers the others the same, as if the
    connection had not existed; it is only closed. *)
Theorem C39_no_effect_before_connect cfg c es : forall w, not_served w c ->
  (forall k u a, ~ In (EFirst c (Some (Connect k)) u a) es) ->
  fst (run cfg es w) = fst (run cfg (filter (not_of c) es) w)
  /\ snd (run cfg (filter (not_of c) es) w) = filter (fun x => negb (output_of c x)) (snd (run cfg es w))
  /\ not_served (fst (run cfg es w)) c
  /\ (forall x, In x (snd (run cfg es w)) -> output_of c x = true -> x = Closed c).
Proof.
  induction es as [|e es IH]; intros w Hn He; [simpl; tauto|].
  assert (He' : forall k u a, ~ In (EFirst c (Some (Connect k)) u a) es) by (intros k u a Hi; eapply He; right; exact Hi).
  cbn [filter]. assert (Hno : not_of c e = negb (event_of c e)) by reflexivity. rewrite Hno. clear Hno.
  destruct (event_of c e) eqn:Ev; cbn [negb].
  - assert (Hs : fst (step cfg w e) = w /\ Forall (fun x => x = Closed c) (snd (step cfg w e))).
    { destruct e as [d k u a|d k|d f|d|d|]; simpl in Ev; try discriminate; apply Nat.eqb_eq in Ev; subst d; simpl; rewrite Hn; simpl; auto.
      destruct k as [[]|]; try (split; [reflexivity|repeat constructor]). exfalso. eapply He. left. reflexivity. }
    destruct (step cfg w e) as [w1 o1] eqn:E. cbn [fst snd] in Hs. destruct Hs as [-> Ho].
    rewrite run_cons, E. cbn [fst snd]. destruct (IH w Hn He') as (I1 & I2 & I3 & I4).
    split; [exact I1|]. split; [|split; [exact I3|]].
    + rewrite filter_app, I2. replace (filter _ o1) with (@nil output); [reflexivity|]. clear -Ho.
      induction Ho; simpl; auto. subst x. simpl. rewrite Nat.eqb_refl. exact IHHo.
    + intros x Hx. apply in_app_or in Hx. destruct Hx as [Hx|Hx]; [|apply I4, Hx]. intros _. rewrite Forall_forall in Ho. auto.
  - destruct (step cfg w e) as [w1 o1] eqn:E. destruct (others_step _ _ _ _ _ _ Hn Ev E) as [Hn1 Ho].
    rewrite !run_cons, E. cbn [fst snd]. destruct (IH w1 Hn1 He') as (I1 & I2 & I3 & I4).
    split; [exact I1|]. split; [|split; [exact I3|]].
    + rewrite filter_app, I2. f_equal. clear -Ho. induction Ho; simpl; auto. rewrite H. simpl. congruence.
    + intros x Hx. apply in_app_or in Hx. destruct Hx as [Hx|Hx]; [|apply I4, Hx]. intros Hc. rewrite Forall_forall in Ho. apply Ho in Hx. congruence.
Qed.
Print Assumptions C39_no_effect_before_connect.
Example C39_ex : let es := [EFirst 3 (Some (Publish (ex_publish AtMostOnce None true "t" "x"))) [] true;
    ex_first 1 (ex_connect "a" true); ex_pub 3 AtMostOnce None "t" "x"; ex_sub 1 "t"; EEnd 3] in
  (forall k u a, ~ In (EFirst 3 (Some (Connect k)) u a) es) /\ (List.length (snd (run ex_open es world_new)) = 3)%nat.
Proof. split; [intros k u a; simpl; intuition discriminate|reflexivity]. Qed.

(** ** C40: false for clients without an identifier. *)
Theorem C40_own_session_refuted : exists es c d k,
  c <> d /\ opened_by ex_open es c k /\ opened_by ex_open es d k /\ presented k = [] /\
  exists i s s', serves (state ex_open es) c i s /\ serves (state ex_open es) d i s'
    (* a message for the filter that [c] subscribed to is sent to [d] *)
    /\ exists q, snd (step ex_open (state ex_open (es ++ [ex_sub c "t"; ex_pub c AtMostOnce None "t" "v"])) (EOut d (str "t"))) = [Sent d (Publish q)].
Proof.
  exists [ex_first 1 (ex_connect "" false); EFirst 2 (Some (Connect (ex_connect "" false))) (str "uuid2") true], 1%nat, 2%nat, (ex_connect "" false).
  split; [discriminate|].
  split. { exists [], (str "uuid"). eexists. split; [reflexivity|]. split; [reflexivity|]. split; [left; reflexivity|].
    intros [|e [|e2 p]] q H; simpl in H; try (injection H as <- H); try (vm_compute; discriminate).
    }
  split. { exists [ex_first 1 (ex_connect "" false)], (str "uuid2"), []. split; [reflexivity|]. split; [reflexivity|]. split; [left; reflexivity|].
    intros [|e p] q H; [vm_compute; discriminate|discriminate]. }
  split; [reflexivity|]. exists 0%nat. do 2 eexists. split; [split; vm_compute; reflexivity|]. split; [split; vm_compute; reflexivity|].
  eexists. vm_compute. reflexivity.
Qed.
Print Assumptions C40_own_session_refuted.
(** What holds for every history: connections that share a session presented the same
    identifier. Missing: that the identifier is not empty. *)
Theorem C40_shared_identifier_partial cfg es c d i s s' :
  serves (state cfg es) c i s -> serves (state cfg es) d i s' ->
  exists k q, opened_by cfg es c k /\ opened_by cfg es d q /\ presented k = presented q.
Proof.
  intros [Hc _] [Hd _]. destruct (owned_exists cfg es) as [own [_ O2 _]].
  destruct (O2 c i Hc) as (k & Hk & Ek). destruct (O2 d i Hd) as (q & Hq & Eq). exists k, q. split; auto. split; auto. congruence.
Qed.
Print Assumptions C40_shared_identifier_partial.
(** And a client, with or without identifier, that asks for a clean start has a session that
    did not exist before and that no other connection has. *)
Theorem C40_clean_start_own_session cfg w c k u w' o : reachable cfg w -> not_served w c -> accepts cfg k ->
  cf_clean_start (c_flags k) = true -> step cfg w (EFirst c (Some (Connect k)) u true) = (w', o) ->
  exists i s, serves w' c i s /\ nth_error (w_heap w) i = None /\ forall d j s', serves w' d j s' -> d <> c -> j <> i.
Proof.
  intros Hr Hn Ha Hcl H. apply authenticated_iff in Ha. pose proof (reachable_wf cfg w Hr) as Hwf.
  destruct (connect_accept _ _ _ _ _ _ _ Hwf Hn Ha H) as (i & subs & wl & infl & s & s1 & Hac).
  assert (Hi : i = length (w_heap w)) by (destruct (ac_entered _ _ _ _ _ _ _ _ _ _ _ _ _ Hac); [congruence|auto]).
  destruct (unshared_new _ _ _ _ _ _ _ _ _ _ _ _ _ Hwf Hac ltac:(lia)) as [U1 U2 _].
  destruct Hac as [_ _ _ Hc _ Hs _ _ _]. exists i. eexists. split; [split; [exact U1|exact Hs]|].
  split; [apply nth_error_None; lia|]. intros d j s' [Hd _] Hne ->. apply Hne, U2, Hd.
Qed.
Print Assumptions C40_clean_start_own_session.
Example C40_ex : exists i s s', serves (state ex_open [ex_first 1 (ex_connect "a" false); ex_first 2 (ex_connect "a" false)]) 1 i s
  /\ serves (state ex_open [ex_first 1 (ex_connect "a" false); ex_first 2 (ex_connect "a" false)]) 2 i s'.
Proof. exists 0%nat. do 2 eexists. split; split; vm_compute; reflexivity. Qed.

(** ** C41 *)
Lemma connack_present cfg c k u w w' o i subs wl infl s s1 : accepted cfg c k u w w' o i subs wl infl s s1 ->
  exists x rest, o = Sent c (ConnAck x) :: rest /\ ca_session_present x = resumes k w.
Proof.
  intros [_ _ Ho _ _ _ _ _ _]. unfold begin in Ho. destruct (cl_client_id _); simpl in Ho; eexists; eexists; (split; [exact Ho|reflexivity]).
Qed.
(** If the flag is set, the client asked to resume and an earlier accepted CONNECT had the
    identifier. *)
Theorem C41_session_present_sound cfg es c k u w' x rest : presented k <> [] ->
  step cfg (state cfg es) (EFirst c (Some (Connect k)) u true) = (w', Sent c (ConnAck x) :: rest) ->
  ca_session_present x = true ->
  cf_clean_start (c_flags k) = false /\ exists d q v a, connected cfg es d q v a /\ identifier q v = presented k.
Proof.
  intros Hk H Hx. pose proof (state_wf cfg es) as Hwf.
  assert (Hacc : exists i subs wl infl s s1, accepted cfg c k u (state cfg es) w' (Sent c (ConnAck x) :: rest) i subs wl infl s s1).
  { destruct (aget Nat.eqb c (w_conns (state cfg es))) as [j|] eqn:Ec; [rewrite (connect_busy _ _ _ _ _ _ _ Ec) in H; discriminate|].
    destruct (authenticated cfg k) eqn:Ea.
    - apply (connect_accept cfg c k u _ _ _ Hwf Ec Ea H).
    - rewrite connect_reject in H by auto. inv H. discriminate. }
  destruct Hacc as (i & subs & wl & infl & s & s1 & Hac). destruct (connack_present _ _ _ _ _ _ _ _ _ _ _ _ _ Hac) as (y & r & Ey & Hy).
  injection Ey as <- <-. rewrite Hx in Hy. symmetry in Hy. unfold resumes in Hy. apply andb_prop in Hy. destruct Hy as [Hc Ho].
  apply negb_true_iff in Hc. split; auto. destruct (used_all cfg es) as [U1 U2 _]. apply orb_prop in Ho. destruct Ho as [Ho|Ho].
  - destruct (U1 (presented k)) as (d & q & v & a & Hd & Hq).
    { unfold presented. destruct (aget _ _ _); [discriminate|discriminate Ho]. }
    exists d, q, v, a. split; auto. unfold identifier. rewrite Hq. destruct (presented k); congruence.
  - apply U2. unfold presented. destruct (mem_load_session _ _); [discriminate|discriminate Ho].
Qed.
Print Assumptions C41_session_present_sound.
(** Conversely, if a CONNACK was sent to a client with this identifier and no CONNECT with
    clean start for it failed half way, a client that asks to resume is told so. *)
Theorem C41_session_present_complete cfg es c k u d q v w' o : presented k <> [] ->
  connected cfg es d q v true -> identifier q v = presented k ->
  (forall d' q' v', connected cfg es d' q' v' false -> presented q' = presented k -> cf_clean_start (c_flags q') = false) ->
  not_served (state cfg es) c -> accepts cfg k -> cf_clean_start (c_flags k) = false ->
  step cfg (state cfg es) (EFirst c (Some (Connect k)) u true) = (w', o) ->
  exists x rest, o = Sent c (ConnAck x) :: rest /\ ca_session_present x = true.
Proof.
  intros Hk Hq Hid Hun Hn Ha Hcl H. pose proof (state_wf cfg es) as Hwf. apply authenticated_iff in Ha.
  destruct (connect_accept cfg c k u _ _ _ Hwf Hn Ha H) as (i & subs & wl & infl & s & s1 & Hac).
  destruct (connack_present _ _ _ _ _ _ _ _ _ _ _ _ _ Hac) as (x & rest & -> & Hx). exists x, rest. split; auto. rewrite Hx.
  pose proof (stored_after_connect cfg es d q v (presented k) Hk Hq Hid Hun) as Hst.
  unfold resumes. rewrite Hcl. simpl. unfold presented in Hst. destruct (mem_load_session _ _); [apply orb_true_r|congruence].
Qed.
Print Assumptions C41_session_present_complete.
Example C41_ex : let es := [ex_first 1 (ex_connect "a" false); EEnd 1; ERestart] in
  connected ex_open es 1 (ex_connect "a" false) (str "uuid") true
  /\ exists x w', step ex_open (state ex_open es) (ex_first 2 (ex_connect "a" false)) = (w', [Sent 2 (ConnAck x)]) /\ ca_session_present x = true.
Proof.
  split; [exists [], [EEnd 1; ERestart]; split; [reflexivity|split; [reflexivity|left; reflexivity]]|].
  do 2 eexists. vm_compute. split; reflexivity.
Qed.
(** Without an identifier the flag is wrong: the second client has an identifier nobody used,
    yet is told that its session is present. *)
Theorem C41_empty_identifier_refuted : exists es c k u w' x,
  presented k = [] /\ not_served (state ex_open es) c /\
  step ex_open (state ex_open es) (EFirst c (Some (Connect k)) u true) = (w', [Sent c (ConnAck x)]) /\
  ca_session_present x = true /\ forall d q v a, connected ex_open es d q v a -> identifier q v <> identifier k u.
Proof.
  exists [ex_first 1 (ex_connect "" false)], 2%nat, (ex_connect "" false), (str "uuid2"). do 2 eexists.
  split; [reflexivity|]. split; [reflexivity|]. split; [vm_compute; reflexivity|]. split; [reflexivity|].
  intros d q v a (es1 & es2 & E & _). destruct es1 as [|e es1]; [|destruct es1; discriminate].
  injection E as <- <- <- <- _. discriminate.
Qed.
Print Assumptions C41_empty_identifier_refuted.

(** ** C42: false after a restart. The message in flight of the discarded session is sent to
    the new one. *)
Theorem C42_nothing_used_again_refuted : exists es1 es2 c d k q x p,
  (* [c] starts clean; after [es2] it resumes *)
  cf_clean_start (c_flags k) = true /\ presented k = str "a" /\ presented q = str "a" /\
  (forall f e, In e es2 -> e <> ex_sub c f) /\
  (* nothing is published after the clean start *)
  (forall e r y, In e (ex_first c k :: es2) -> e <> EPacket r (Publish y)) /\
  snd (run ex_open (ex_first c k :: es2 ++ [ex_first d q]) (state ex_open es1))
    = [Sent c (ConnAck x); Closed c; Sent d (ConnAck (Mk_connack_packet V5 true Success None)); Sent d (Publish p)].
Proof.
  exists [ex_first 1 (ex_connect "a" false); ex_sub 1 "t"; ex_first 2 (ex_connect "b" true); ex_pub 2 AtLeastOnce (Some 9) "t" "old"; EOut 1 (str "t"); EEnd 1; EEnd 2],
    [ERestart], 3%nat, 4%nat, (ex_connect "a" true), (ex_connect "a" false). do 2 eexists.
  split; [reflexivity|]. split; [reflexivity|]. split; [reflexivity|].
  split; [intros f e [<-|[]]; discriminate|]. split; [intros e r y [<-|[<-|[]]]; discriminate|].
  vm_compute. reflexivity.
Qed.
Print Assumptions C42_nothing_used_again_refuted.
(** What holds: the session is new and empty, has the will of this CONNECT and no other, the
    stored session is replaced; and until a restart no client with this identifier gets an
    older session. Missing: messages in flight in the store. *)
Theorem C42_clean_start_partial cfg w c k u w' o :
  reachable cfg w -> not_served w c -> accepts cfg k -> cf_clean_start (c_flags k) = true ->
  step cfg w (EFirst c (Some (Connect k)) u true) = (w', o) ->
  exists i s x, serves w' c i s /\ nth_error (w_heap w) i = None
    /\ (forall f, ~ subscribed s f) /\ se_unacked s = [] /\ se_pubrecs s = [] /\ (forall y, se_will s = Some y <-> declares k y)
    /\ o = [Sent c (ConnAck x)] /\ ca_session_present x = false
    /\ (presented k <> [] ->
          mem_load_session (presented k) (w_store w') = Some (Mk_session_state (presented k) [] false)
          /\ forall y, mem_get_will (presented k) (w_store w') = Some y <-> declares k y)
    /\ (forall es d q v w2 o2 j s2, ~ In ERestart es -> presented q = presented k ->
          not_served (fst (run cfg es w')) d ->
          step cfg (fst (run cfg es w')) (EFirst d (Some (Connect q)) v true) = (w2, o2) -> serves w2 d j s2 ->
          nth_error (w_heap w) j = None).
Proof.
  intros Hr Hn Ha Hcl H. apply authenticated_iff in Ha. pose proof (reachable_wf cfg w Hr) as Hwf.
  destruct (connect_accept _ _ _ _ _ _ _ Hwf Hn Ha H) as (i & subs & wl & infl & s & s1 & Hac).
  pose proof (ac_entered _ _ _ _ _ _ _ _ _ _ _ _ _ Hac) as Hen. inversion Hen as [s0 Hc Hx Hi|? ? ? Hl Hor Hz _]; subst; [congruence|].
  destruct (Hz Hcl) as (-> & -> & ->). clear Hor Hz.
  destruct (ac_restore _ _ _ _ _ _ _ _ _ _ _ _ _ Hac) as (b0 & _ & _ & Hrs). simpl in Hrs. injection Hrs as <- _.
  destruct (connack_present _ _ _ _ _ _ _ _ _ _ _ _ _ Hac) as (x & rest & Ho & Hx).
  assert (Hrest : rest = []) by (rewrite (ac_out _ _ _ _ _ _ _ _ _ _ _ _ _ Hac) in Ho; simpl in Ho; congruence). subst rest.
  assert (Hrs : resumes k w = false) by (unfold resumes; rewrite Hcl; reflexivity).
  pose proof (ac_session _ _ _ _ _ _ _ _ _ _ _ _ _ Hac) as Hs1. cbn [option_map] in Hs1.
  set (s1 := snd (begin u (resumes k w) (session_new k))) in *.
  assert (Hs : se_subs s1 = [] /\ se_unacked s1 = [] /\ se_pubrecs s1 = [] /\ se_will s1 = will_of_connect k).
  { unfold s1, begin. destruct (cl_client_id _); simpl; auto. }
  destruct Hs as (S1 & S2 & S3 & S4).
  assert (Hd : forall y, will_of_connect k = Some y <-> declares k y) by (intros y; apply declares_iff).
  exists (length (w_heap w)), s1, x. split; [split; [rewrite (ac_conns _ _ _ _ _ _ _ _ _ _ _ _ _ Hac); apply aget_put_same, nateqb_spec|exact Hs1]|].
  split; [apply nth_error_None; lia|]. split; [unfold subscribed; rewrite S1; auto|]. split; auto. split; auto.
  split; [intros y; rewrite S4; apply Hd|]. split; [exact Ho|]. split; [congruence|]. split.
  - intros Hne. destruct (accepted_id _ _ _ _ _ _ _ _ _ _ _ _ _ Hac) as [_ Hfi].
    assert (Hf : final_id k u = presented k) by (unfold final_id, presented, client_id in *; destruct (cl_client_id _); congruence).
    rewrite (ac_store _ _ _ _ _ _ _ _ _ _ _ _ _ Hac). fold s1. fold s1 in Hfi. rewrite Hf in Hfi. split.
    + unfold mem_load_session. rewrite connect_sessions, Hfi. apply aget_put_same, beqb_spec.
    + intros y. rewrite <- Hd. unfold mem_get_will, connect_store. rewrite S4, Hfi, Hcl. destruct (will_of_connect k); simpl.
      * rewrite aget_put_same by apply beqb_spec. reflexivity.
      * rewrite aget_del_same by apply beqb_spec. reflexivity.
  - intros es d q v w2 o2 j s2 Hre Hq Hnd H2 [Hd2 _]. apply nth_error_None.
    assert (Hwf' : wf w') by (eapply step_wf; eauto).
    destruct (manager_young cfg es w' (presented k) (length (w_heap w)) Hwf') as [Hlen Hy].
    { intros e He ->. auto. }
    { rewrite (ac_length _ _ _ _ _ _ _ _ _ _ _ _ _ Hac). lia. }
    { intros y. rewrite (ac_manager _ _ _ _ _ _ _ _ _ _ _ _ _ Hac), aget_put_same by apply beqb_spec. intros E. inv E. lia. }
    assert (Hwf2 : wf (fst (run cfg es w'))) by (apply run_wf; auto).
    destruct (first_cases _ _ _ _ _ _ _ _ Hwf2 H2) as [(-> & _)|[(q' & i' & subs & wl & infl & s' & s1' & Eq & _ & _ & _ & Hac')|(q' & i' & s' & _ & Eq & _)]]; [unfold not_served in Hnd; congruence| |discriminate].
    injection Eq as <-. rewrite (ac_conns _ _ _ _ _ _ _ _ _ _ _ _ _ Hac'), aget_put_same in Hd2 by apply nateqb_spec. injection Hd2 as ->.
    destruct (ac_entered _ _ _ _ _ _ _ _ _ _ _ _ _ Hac') as [? _ Hx' _|? ? ? ->]; [|lia]. apply Hy. rewrite <- Hq. exact Hx'.
Qed.
Print Assumptions C42_clean_start_partial.
Example C42_ex : let w := ex_world [ex_first 1 (ex_connect "a" false); ex_sub 1 "t"; EEnd 1] in
  reachable ex_open w /\ not_served w 2 /\ accepts ex_open (ex_connect_will "a" true "w" "p")
  /\ mem_load_session (str "a") (w_store w) = Some (Mk_session_state (str "a") [str "t"] false)
  /\ exists w' o, step ex_open w (ex_first 2 (ex_connect_will "a" true "w" "p")) = (w', o)
     /\ mem_load_session (str "a") (w_store w') = Some (Mk_session_state (str "a") [] false).
Proof.
  split; [eexists; reflexivity|]. split; [reflexivity|]. split; [left; reflexivity|]. split; [vm_compute; reflexivity|].
  do 2 eexists. split; vm_compute; reflexivity.
Qed.

(** ** C43: false. Resuming in memory stores an empty list of subscriptions; after a restart
    they are lost. *)
Theorem C43_resume_keeps_subscriptions_refuted : exists es c d q s s' i j w' o,
  serves (state ex_open es) c i s /\ subscribed s (str "t") /\ presented q = str "a" /\ cf_clean_start (c_flags q) = false /\
  (exists k, opened_by ex_open es c k /\ presented k = str "a" /\ cf_clean_start (c_flags k) = false) /\
  step ex_open (state ex_open (es ++ [ERestart])) (ex_first d q) = (w', o) /\
  serves w' d j s' /\ ~ subscribed s' (str "t").
Proof.
  exists [ex_first 1 (ex_connect "a" false); ex_sub 1 "t"; EEnd 1; ex_first 2 (ex_connect "a" false)], 2%nat, 3%nat, (ex_connect "a" false).
  do 6 eexists. split; [split; vm_compute; reflexivity|]. split; [left; reflexivity|]. split; [reflexivity|]. split; [reflexivity|].
  split.
  { exists (ex_connect "a" false). split; [|split; reflexivity].
    exists [ex_first 1 (ex_connect "a" false); ex_sub 1 "t"; EEnd 1], (str "uuid"), []. split; [reflexivity|]. split; [reflexivity|].
    split; [left; reflexivity|]. intros [|] ? H; [vm_compute; discriminate|discriminate]. }
  split; [vm_compute; reflexivity|]. split; [split; vm_compute; reflexivity|]. vm_compute. tauto.
Qed.
Print Assumptions C43_resume_keeps_subscriptions_refuted.
(** What holds without a restart: a client that was alone under its identifier, loses or
    closes its connection and comes back without clean start has the same session, with the
    same subscriptions in the same state. Only the CONNACK is sent. *)
Theorem C43_reconnect_partial cfg es1 c k u es2 i s e es3 d q v w' o :
  not_served (state cfg es1) c -> accepts cfg k ->
  (cf_clean_start (c_flags k) = true \/ forall d q, opened_by cfg es1 d q -> presented q <> presented k) ->
  ~ In ERestart es2 -> (forall x y z, ~ In (EFirst c x y z) es2) ->
  (forall d q v a, In (EFirst d (Some (Connect q)) v a) es2 -> presented q <> presented k) ->
  serves (state cfg (es1 ++ EFirst c (Some (Connect k)) u true :: es2)) c i s ->
  (e = EEnd c \/ exists x, e = EPacket c (Disconnect x)) ->
  ~ In ERestart es3 -> (forall d q v a, In (EFirst d (Some (Connect q)) v a) es3 -> presented q <> presented k) ->
  let w := state cfg (es1 ++ EFirst c (Some (Connect k)) u true :: es2 ++ e :: es3) in
  not_served w d -> accepts cfg q -> presented q = presented k -> cf_clean_start (c_flags q) = false ->
  step cfg w (EFirst d (Some (Connect q)) v true) = (w', o) ->
  exists s' x, serves w' d i s' /\ (forall f st, subscription s' f st <-> subscription s f st)
    /\ o = [Sent d (ConnAck x)] /\ ca_session_present x = true.
Proof.
  intros Hn Ha Hcl Hre2 Hf2 Hp2 Hs He Hre3 Hp3 w Hnd Hq Hpq Hqc H. apply authenticated_iff in Ha. pose proof (state_wf cfg es1) as Hwf.
  destruct (step cfg (state cfg es1) (EFirst c (Some (Connect k)) u true)) as [w1 o1] eqn:E1.
  destruct (connect_accept _ _ _ _ _ _ _ Hwf Hn Ha E1) as (i0 & subs & wl & infl & s0 & s1 & Hac).
  pose proof (current_connect _ _ _ _ _ _ _ _ _ _ _ _ _ Hac Hcl) as Hcu.
  assert (Hw1 : w1 = state cfg (es1 ++ [EFirst c (Some (Connect k)) u true])) by (rewrite state_snoc, E1; reflexivity).
  assert (Hwf1 : wf w1) by (rewrite Hw1; apply state_wf).
  assert (Hpr : forall es, (forall d q v a, In (EFirst d (Some (Connect q)) v a) es -> presented q <> presented k) ->
     forall e, In e es -> ~ presents e (presented k)).
  { intros es He0 x Hx (d0 & q0 & v0 & a0 & -> & Hc0). apply (He0 _ _ _ _ Hx). exact Hc0. }
  rewrite state_connect, <- Hw1 in Hs. pose proof (run_wf cfg es2 w1 Hwf1) as Hwf2.
  destruct (current_run cfg es2 w1 c i0 (presented k) Hwf1 Hcu Hre2 Hf2 (Hpr _ Hp2)) as [[[U1 U2 U3] Hm]|Hx].
  2:{ exfalso. destruct Hs as [Hs _]. unfold not_served in Hx. congruence. }
  set (w2 := fst (run cfg es2 w1)) in *. destruct Hs as [Hc Hi]. rewrite U1 in Hc. injection Hc as <-.
  assert (Hw : w = fst (run cfg (e :: es3) w2)).
  { unfold w, w2. rewrite Hw1, <- state_connect. rewrite <- state_app. f_equal. rewrite <- app_assoc. reflexivity. }
  rewrite run_cons in Hw. cbn [fst] in Hw.
  assert (H3 : exists o3 s3, step cfg w2 e = (fst (step cfg w2 e), o3) /\ waiting (fst (step cfg w2 e)) i0 (presented k) s3
       /\ se_subs s3 = se_subs s).
  { destruct He as [->|[x ->]].
    - rewrite (step_end _ _ _ i0 s) by (split; auto). cbn [fst]. do 2 eexists. split; [reflexivity|]. split; [split|].
      + rewrite end_manager. exact Hm.
      + intros y. rewrite end_conns, aget_adel by apply nateqb_spec. destruct (Nat.eqb y c) eqn:Ey; [discriminate|].
        intros Hy. apply U2 in Hy. subst y. rewrite Nat.eqb_refl in Ey. discriminate.
      + apply end_heap_same. exact Hi.
      + reflexivity.
    - rewrite (step_disconnect _ _ _ i0 s) by (split; auto). cbn [fst]. do 2 eexists. split; [reflexivity|]. split; [split|].
      + unfold disconnect_step. rewrite end_manager. exact Hm.
      + intros y. unfold disconnect_step. rewrite end_conns. simpl. rewrite aget_adel by apply nateqb_spec. destruct (Nat.eqb y c) eqn:Ey; [discriminate|].
        intros Hy. apply U2 in Hy. subst y. rewrite Nat.eqb_refl in Ey. discriminate.
      + rewrite (disconnect_heap c i0 s w2 i0 s Hi Hi), Nat.eqb_refl. reflexivity.
      + reflexivity. }
  destruct H3 as (o3 & s3 & E3 & Hwa & Hsub). set (w3 := fst (step cfg w2 e)) in *.
  assert (Hinj : injective_manager w3).
  { apply (injective_step cfg w2 e w3 o3 Hwf2); auto. apply (reachable_injective cfg). unfold w2. rewrite Hw1, <- state_connect. apply state_reachable. }
  assert (Hwf3 : wf w3) by (apply (step_wf cfg w2 e w3 o3); auto).
  destruct (waiting_run cfg es3 w3 i0 (presented k) s3 Hwf3 Hinj Hwa Hre3 (Hpr _ Hp3)) as [M1 M2 M3]. rewrite <- Hw in M1, M2, M3.
  assert (Hwf4 : wf w) by (rewrite Hw; apply run_wf; auto). apply authenticated_iff in Hq.
  destruct (connect_accept _ _ _ _ _ _ _ Hwf4 Hnd Hq H) as (i4 & subs4 & wl4 & infl4 & s4 & s5 & Hac4).
  destruct (connack_present _ _ _ _ _ _ _ _ _ _ _ _ _ Hac4) as (x & rest & Ho & Hx).
  pose proof (ac_entered _ _ _ _ _ _ _ _ _ _ _ _ _ Hac4) as Hen. inversion Hen as [s6 Hc6 Hm6 Hi6|? ? ? Hl Hor _ _]; subst.
  2:{ exfalso. unfold presented in *. rewrite Hpq in Hor. destruct Hor; congruence. }
  assert (i4 = i0) by (unfold presented in *; rewrite Hpq in Hm6; congruence). subst i4. rewrite M3 in Hi6. injection Hi6 as <-.
  destruct (ac_restore _ _ _ _ _ _ _ _ _ _ _ _ _ Hac4) as (b0 & _ & _ & Hrs). simpl in Hrs. injection Hrs as <- _.
  pose proof (ac_session _ _ _ _ _ _ _ _ _ _ _ _ _ Hac4) as Hs4. cbv beta iota in Hs4.
  eexists. exists x. split; [split; [rewrite (ac_conns _ _ _ _ _ _ _ _ _ _ _ _ _ Hac4); apply aget_put_same, nateqb_spec|exact Hs4]|].
  split.
  { intros f st. unfold subscription.
    assert (Hz : se_subs (snd (begin v (resumes q w) (set_connect_packet q s3))) = se_subs s3) by (unfold begin; destruct (cl_client_id _); reflexivity).
    rewrite Hz, Hsub. reflexivity. }
  pose proof (ac_out _ _ _ _ _ _ _ _ _ _ _ _ _ Hac4) as Hoo. injection Hoo as _ Hrest. simpl in Hrest.
  split; [rewrite Hrest; reflexivity|].
  rewrite Hx. unfold resumes. rewrite Hc6. unfold presented in *. rewrite Hpq, M1. reflexivity.
Qed.
Print Assumptions C43_reconnect_partial.
Example C43_ex : let es := [ex_first 1 (ex_connect "a" false); ex_sub 1 "t"; ex_first 2 (ex_connect "b" true)] in
  (exists s, serves (state ex_open es) 1 0 s /\ subscribed s (str "t")) /\ (forall d q, ~ opened_by ex_open [] d q) /\
  let w := state ex_open (es ++ EEnd 1 :: [ex_pub 2 AtMostOnce None "t" "v"]) in
  exists w' x s', step ex_open w (ex_first 3 (ex_connect "a" false)) = (w', [Sent 3 (ConnAck x)]) /\ serves w' 3 0 s'
    /\ exists q, snd (step ex_open w' (EOut 3 (str "t"))) = [Sent 3 (Publish q)] /\ pb_payload q = Some (str "v").
Proof.
  split; [eexists; split; [split; vm_compute; reflexivity|left; reflexivity]|].
  split; [intros d q (es1 & u & es2 & H & _); destruct es1; discriminate|].
  do 3 eexists. split; [vm_compute; reflexivity|]. split; [split; vm_compute; reflexivity|]. eexists. split; vm_compute; reflexivity.
Qed.
(** And with a restart at any point: if the session began with a clean start, or was the
    first since the broker started, or the client has changed its subscriptions since, then
    after the restart the client gets exactly the filters it had, whatever other clients do. *)
Theorem C43_restart_partial cfg es1 c k u es2 i s es3 es4 d q v w' o :
  not_served (state cfg es1) c -> accepts cfg k -> presented k <> [] -> alone cfg es1 (presented k) ->
  Forall (avoids (presented k)) es2 -> (forall x y z, ~ In (EFirst c x y z) es2) ->
  (cf_clean_start (c_flags k) = true \/ unused_since_start (presented k) es1
   \/ exists x, In (EPacket c x) es2 /\ changes_subscriptions x) ->
  serves (state cfg (es1 ++ EFirst c (Some (Connect k)) u true :: es2)) c i s ->
  Forall (avoids (presented k)) es3 -> (forall x, In (EPacket c x) es3 -> ~ changes_subscriptions x) ->
  Forall (avoids (presented k)) es4 ->
  let w := state cfg (es1 ++ EFirst c (Some (Connect k)) u true :: es2 ++ es3 ++ ERestart :: es4) in
  not_served w d -> accepts cfg q -> presented q = presented k -> cf_clean_start (c_flags q) = false ->
  step cfg w (EFirst d (Some (Connect q)) v true) = (w', o) ->
  exists j s' x rest, serves w' d j s' /\ (forall f, subscribed s' f <-> subscribed s f)
    /\ o = Sent d (ConnAck x) :: rest /\ ca_session_present x = true.
Proof.
  intros Hn Ha Hne Hal Hav2 Hf2 Hsync Hs Hav3 Hk3 Hav4 w Hnd Hq Hpq Hqc H.
  destruct (connect_alone cfg es1 c k u Hn Ha Hne Hal) as (i0 & Hex & Hcu & Hss & Hin).
  set (w1 := state cfg (es1 ++ [EFirst c (Some (Connect k)) u true])) in *.
  assert (Hwf1 : wf w1) by apply state_wf. rewrite state_connect in Hs. fold w1 in Hs.
  assert (Hnr : forall es, Forall (avoids (presented k)) es -> ~ In ERestart es /\ forall e, In e es -> ~ presents e (presented k)).
  { intros es Hes. rewrite Forall_forall in Hes. split; [intros Hi; destruct (Hes _ Hi) as [Hx _]; congruence|].
    intros e He. apply avoids_presents, Hes, He. }
  destruct (Hnr _ Hav2) as [Hr2 Hp2].
  (* the session is in the store at the end of [es2] *)
  assert (H2 : in_store (fst (run cfg es2 w1)) i0 (presented k)).
  { assert (Hor : (cf_clean_start (c_flags k) = true \/ unused_since_start (presented k) es1) \/ exists x, In (EPacket c x) es2 /\ changes_subscriptions x) by tauto.
    destruct Hor as [Hor|(x & Hx & Hch)]; [apply (in_store_run cfg es2 w1 i0 (presented k)); auto|].
    apply in_split in Hx. destruct Hx as (p & r & ->). apply Forall_app in Hav2. destruct Hav2 as [Hav2 Hav2'].
    inversion Hav2' as [|? ? Hxx Hav2'']; subst.
    assert (Hcu2 : current (fst (run cfg p w1)) c i0 (presented k)).
    { destruct (current_run cfg p w1 c i0 (presented k) Hwf1 Hcu) as [|Hx]; auto.
      - intros Hi. apply Hr2. apply in_or_app. auto.
      - intros x0 y z Hi. apply (Hf2 x0 y z). apply in_or_app. auto.
      - intros e0 Hi. apply Hp2. apply in_or_app. auto.
      - exfalso. (* once unserved, [c] stays so *)
        destruct Hs as [Hs _]. rewrite run_app in Hs. cbn [fst] in Hs.
        assert (Hstay : forall l w0, not_served w0 c -> (forall x y z, ~ In (EFirst c x y z) l) -> not_served (fst (run cfg l w0)) c).
        { clear. induction l as [|e l IH]; intros w0 H0 Hl; auto. rewrite run_cons. cbn [fst]. destruct (step cfg w0 e) as [w1 o1] eqn:E. cbn [fst].
          apply IH; [|intros x y z Hi; apply (Hl x y z); right; exact Hi].
          destruct (step_conns _ _ _ _ _ c E) as [Hc|Hc]; auto; [intros x y z ->; apply (Hl x y z); left; reflexivity|unfold not_served in *; congruence]. }
        assert (Hno : not_served (fst (run cfg (EPacket c x :: r) (fst (run cfg p w1)))) c).
        { apply Hstay; auto. intros x0 y z Hi. apply (Hf2 x0 y z). apply in_or_app. auto. }
        unfold not_served in Hno. congruence. }
    assert (Hwfp : wf (fst (run cfg p w1))) by (apply run_wf; auto).
    pose proof (exclusive_run cfg p w1 i0 (presented k) Hwf1 Hav2 Hex) as Hexp.
    destruct Hcu2 as [[U1 U2 U3] Hm]. destruct (ex_session _ _ _ Hexp) as (sx & Hsx & Hidx).
    rewrite run_app. cbn [fst]. rewrite run_cons. cbn [fst].
    destruct (step cfg (fst (run cfg p w1)) (EPacket c x)) as [w5 o5] eqn:E5. cbn [fst].
    assert (Hin5 : in_store w5 i0 (presented k)).
    { rewrite <- Hidx. eapply (in_store_change cfg _ c i0 sx x w5 o5 Hwfp); eauto; [split; auto|].
      destruct Hch as [[p0 ->]|[p0 ->]]; reflexivity. }
    apply (in_store_run cfg r w5 i0 (presented k)); auto.
    - eapply step_wf; eauto.
    - eapply exclusive_step; eauto. }
  destruct (current_run cfg es2 w1 c i0 (presented k) Hwf1 Hcu Hr2 Hf2 Hp2) as [Hcu2|Hx].
  2:{ exfalso. destruct Hs as [Hs _]. unfold not_served in Hx. congruence. }
  set (w2 := fst (run cfg es2 w1)) in *. assert (Hwf2 : wf w2) by (apply run_wf; auto).
  pose proof (exclusive_run cfg es2 w1 i0 (presented k) Hwf1 Hav2 Hex) as Hex2. fold w2 in Hex2.
  pose proof (current_only _ _ _ _ Hwf2 Hcu2) as Hou2.
  assert (i = i0) by (destruct Hcu2 as [[U1 _ _] _]; destruct Hs as [Hs _]; congruence). subst i.
  destruct H2 as (sx & st & Hsx & Hst & Hsub). assert (sx = s) by (destruct Hs; congruence). subst sx.
  pose proof (stored_session_run cfg es3 w2 c i0 (presented k) Hwf2 Hav3 Hex2 Hou2) as Hst3. rewrite Hst in Hst3.
  assert (Hst4 : mem_load_session (presented k) (w_store (fst (run cfg es3 w2))) = Some st).
  { apply Hst3. intros x Hx. destruct (is_subscription_change x) eqn:Ex; auto. exfalso. apply (Hk3 x Hx).
    destruct x; try discriminate; [left|right]; eauto. }
  clear Hst3. set (w3 := fst (run cfg es3 w2)) in *. assert (Hwf3 : wf w3) by (apply run_wf; auto).
  assert (Hw : w = fst (run cfg es4 (restart w3))).
  { unfold w, w3, w2, w1. rewrite state_connect. rewrite !run_app. cbn [fst]. rewrite run_cons. reflexivity. }
  destruct (back_after_restart cfg w3 (presented k) es4 Hwf3 Hav4) as (B1 & B2 & B3 & _). rewrite <- Hw in B1, B2, B3.
  rewrite Hst4 in B3. apply authenticated_iff in Hq. rewrite <- Hpq in B2, B3.
  destruct (resume_from_store cfg w d q v w' o B1 Hnd Hq Hqc B2 H st B3) as (j & s' & x & R1 & _ & R3 & R4 & R5).
  exists j, s', x. eexists. split; auto. split; [|split; eauto]. intros f. rewrite R3. apply Hsub.
Qed.
Print Assumptions C43_restart_partial.
Example C43_ex2 : let es2 := [ex_sub 1 "t"; ex_first 2 (ex_connect "b" true); ex_sub 1 "u/#"; ex_unsub 1 "t"] in
  alone ex_open [] (str "a") /\ unused_since_start (str "a") [] /\ Forall (avoids (str "a")) es2
  /\ (exists s, serves (state ex_open (ex_first 1 (ex_connect "a" false) :: es2)) 1 0 s /\ subscribed s (str "u/#") /\ ~ subscribed s (str "t"))
  /\ exists w' x s', step ex_open (state ex_open (ex_first 1 (ex_connect "a" false) :: es2 ++ [ERestart])) (ex_first 3 (ex_connect "a" false))
       = (w', [Sent 3 (ConnAck x)]) /\ serves w' 3 0 s' /\ subscribed s' (str "u/#").
Proof.
  split; [split; [intros d q (es1 & u & es2 & H & _); destruct es1; discriminate|intros d q v a (es1 & es2 & H & _); destruct es1; discriminate]|].
  split; [exists [], []; split; [reflexivity|split; [left; reflexivity|constructor]]|].
  split; [repeat constructor; try discriminate; intros; try discriminate; try (injection H as <- <- <- <-); vm_compute; discriminate|].
  split; [eexists; split; [split; vm_compute; reflexivity|split; [left; reflexivity|vm_compute; intuition discriminate]]|].
  do 3 eexists. split; [vm_compute; reflexivity|]. split; [split; vm_compute; reflexivity|left; reflexivity].
Qed.

(** ** C44: false. When the session is still in memory, nothing is sent again. *)
Theorem C44_redelivered_refuted : exists es c d f q w' x,
  snd (step ex_open (state ex_open es) (EOut c f)) = [Sent c (Publish q)] /\ pb_qos q = AtLeastOnce /\ pb_packet_id q = Some 9 /\
  (exists k, opened_by ex_open es c k /\ presented k = str "a") /\
  step ex_open (state ex_open (es ++ [EOut c f; EEnd c])) (ex_first d (ex_connect "a" false)) = (w', [Sent d (ConnAck x)])
  /\ ca_session_present x = true
  (* nor later *)
  /\ snd (step ex_open w' (EOut d f)) = [].
Proof.
  exists [ex_first 2 (ex_connect "b" true); ex_first 1 (ex_connect "a" false); ex_sub 1 "t"; ex_pub 2 AtLeastOnce (Some 9) "t" "v"],
    1%nat, 3%nat, (str "t"). do 3 eexists.
  split; [vm_compute; reflexivity|]. split; [reflexivity|]. split; [reflexivity|]. split.
  { exists (ex_connect "a" false). split; [|reflexivity]. exists [ex_first 2 (ex_connect "b" true)], (str "uuid"). eexists.
    split; [reflexivity|]. split; [reflexivity|]. split; [left; reflexivity|].
    intros [|e1 [|e2 [|e3 p]]] q H; simpl in H; try discriminate H; try (injection H); intros; subst; vm_compute; discriminate. }
  split; [vm_compute; reflexivity|]. split; vm_compute; reflexivity.
Qed.
Print Assumptions C44_redelivered_refuted.
(** What holds: after a restart at any point. A message delivered with QoS 1 or 2, not
    acknowledged, whose identifier was not used for another delivery since, is sent again with
    DUP, once for each stored message. *)
Theorem C44_redelivered_after_restart_partial cfg es1 c k u es2 f q n es3 es4 d q2 v w' o :
  not_served (state cfg es1) c -> accepts cfg k -> presented k <> [] -> alone cfg es1 (presented k) ->
  Forall (avoids (presented k)) es2 -> (forall x y z, ~ In (EFirst c x y z) es2) ->
  let w2 := state cfg (es1 ++ EFirst c (Some (Connect k)) u true :: es2) in
  snd (step cfg w2 (EOut c f)) = [Sent c (Publish q)] -> pb_packet_id q = Some n -> (pb_qos q = AtLeastOnce \/ pb_qos q = ExactlyOnce) ->
  Forall (avoids (presented k)) es3 -> (forall x, In (EPacket c x) es3 -> ~ acknowledges n x) ->
  (forall r, In (Sent c (Publish r)) (snd (run cfg es3 (fst (step cfg w2 (EOut c f))))) -> pb_packet_id r <> Some n) ->
  Forall (avoids (presented k)) es4 ->
  let w := state cfg (es1 ++ EFirst c (Some (Connect k)) u true :: es2 ++ EOut c f :: es3 ++ ERestart :: es4) in
  not_served w d -> accepts cfg q2 -> presented q2 = presented k -> cf_clean_start (c_flags q2) = false ->
  step cfg w (EFirst d (Some (Connect q2)) v true) = (w', o) ->
  In (Sent d (Publish (Mk_publish_packet true (pb_qos q) false (pb_topic q) (Some n) None (pb_payload q)))) o.
Proof.
  intros Hn Ha Hne Hal Hav2 Hf2 w2 Hout Hqn Hqos Hav3 Hk3 Hr3 Hav4 w Hnd Hq Hpq Hqc H.
  destruct (connect_alone cfg es1 c k u Hn Ha Hne Hal) as (i0 & Hex & Hcu & Hss & _).
  assert (Hwf2 : wf w2) by apply state_wf. unfold w2 in *. clear w2. rewrite state_connect in *.
  set (w1 := state cfg (es1 ++ [EFirst c (Some (Connect k)) u true])) in *. assert (Hwf1 : wf w1) by apply state_wf.
  assert (Hnr : forall es, Forall (avoids (presented k)) es -> ~ In ERestart es /\ forall e, In e es -> ~ presents e (presented k)).
  { intros es Hes. rewrite Forall_forall in Hes. split; [intros Hi; destruct (Hes _ Hi) as [Hx _]; congruence|].
    intros e He. apply avoids_presents, Hes, He. }
  destruct (Hnr _ Hav2) as [Hr2 Hp2].
  set (w2 := fst (run cfg es2 w1)) in *.
  pose proof (exclusive_run cfg es2 w1 i0 (presented k) Hwf1 Hav2 Hex) as Hex2. fold w2 in Hex2.
  pose proof (stored_some_run cfg es2 w1 (presented k) Hwf1 Hav2 Hss) as Hss2. fold w2 in Hss2.
  destruct (step cfg w2 (EOut c f)) as [w3 o3] eqn:E3. cbn [fst snd] in Hout, Hr3.
  destruct (current_run cfg es2 w1 c i0 (presented k) Hwf1 Hcu Hr2 Hf2 Hp2) as [Hcu2|Hx].
  2:{ exfalso. fold w2 in Hx. unfold not_served in Hx. simpl in E3. rewrite Hx in E3. injection E3 as <- <-. discriminate. }
  fold w2 in Hcu2. pose proof (current_only _ _ _ _ Hwf2 Hcu2) as Hou2.
  assert (Hav0 : avoids (presented k) (EOut c f)) by (split; [discriminate|intros; discriminate]).
  (* the message is in the store *)
  assert (Hst3 : mem_get_inflight (presented k) n (w_store w3) = Some (Mk_inflight n (pb_topic q) (pb_payload q) (pb_qos q) (pb_dup q))).
  { destruct (ex_session _ _ _ Hex2) as (s2 & Hs2 & Hid2). assert (Hsv : serves w2 c i0 s2) by (split; [apply Hcu2|exact Hs2]).
    rewrite (step_out cfg w2 c i0 s2 f Hsv) in E3. unfold out_step in E3.
    destruct (process_outgoing f s2 (w_broker w2)) as [[r s3]|] eqn:Ep; [|injection E3 as <- <-; discriminate].
    destruct r as [p|er|]; [|injection E3 as <- <-; discriminate|injection E3 as <- <-; discriminate].
    assert (Hid3 : se_client_id s3 = se_client_id s2) by (apply (outgoing_id _ _ _ _ _ Ep)).
    assert (Ho : o3 = [Sent c (Publish p)]) by congruence. rewrite Ho in Hout. injection Hout as ->.
    rewrite Hqn in E3. destruct Hqos as [Hqos|Hqos]; rewrite Hqos in E3; injection E3 as <- _; unfold w_store at 1; cbn [w_broker set_store set_broker bk_store];
      rewrite get_inflight_store, Hid3, Hid2, bytes_eqb_refl, N.eqb_refl, Hqos; reflexivity. }
  assert (Hwf3 : wf w3) by (pose proof (run_wf cfg [EOut c f] w2 Hwf2) as Hx; rewrite run_cons, E3 in Hx; exact Hx).
  assert (Hex3 : exclusive w3 i0 (presented k)) by (exact (exclusive_step _ _ _ _ _ _ _ Hwf2 Hav0 E3 Hex2)).
  assert (Hou3 : only_user w3 c i0 (presented k)) by (exact (only_user_step _ _ _ _ _ _ _ _ Hwf2 Hav0 E3 Hou2)).
  assert (Hss3 : mem_load_session (presented k) (w_store w3) <> None).
  { pose proof (stored_some_run cfg [EOut c f] w2 (presented k) Hwf2 (Forall_cons _ Hav0 (Forall_nil _)) Hss2) as Hx.
    rewrite run_cons, E3 in Hx. exact Hx. }
  assert (Hst4 : mem_get_inflight (presented k) n (w_store (fst (run cfg es3 w3))) = Some (Mk_inflight n (pb_topic q) (pb_payload q) (pb_qos q) (pb_dup q))).
  { rewrite <- Hst3. apply (stored_inflight_run cfg es3 n w3 c i0 (presented k)); auto. intros x Hx Hc. apply (Hk3 x Hx).
    destruct x; try discriminate; injection Hc as Hc; eexists; split; eauto. }
  assert (Hss4 : mem_load_session (presented k) (w_store (fst (run cfg es3 w3))) <> None) by (apply stored_some_run; auto).
  set (w4 := fst (run cfg es3 w3)) in *. assert (Hwf4 : wf w4) by (apply run_wf; auto).
  assert (Hw : w = fst (run cfg es4 (restart w4))).
  { unfold w, w4. rewrite state_connect. fold w1. rewrite run_app. cbn [fst]. fold w2. rewrite run_cons, E3. cbn [fst]. rewrite run_app. cbn [fst].
    rewrite run_cons. reflexivity. }
  destruct (back_after_restart cfg w4 (presented k) es4 Hwf4 Hav4) as (B1 & B2 & B3 & B4). rewrite <- Hw in B1, B2, B3, B4.
  specialize (B4 n). rewrite Hst4 in B4. apply authenticated_iff in Hq.
  destruct (mem_load_session (presented k) (w_store w4)) as [st|] eqn:Est; [|congruence]. rewrite <- Hpq in B2, B3, B4.
  destruct (resume_from_store cfg w d q2 v w' o B1 Hnd Hq Hqc B2 H st B3) as (j & s' & x & _ & _ & _ & -> & _).
  right. apply in_map_iff. eexists. split; [|apply (inflight_all _ _ _ _ B4)]. reflexivity.
Qed.
Print Assumptions C44_redelivered_after_restart_partial.
(** A message that was acknowledged is not sent again, unless its identifier was used for
    another delivery afterwards. *)
Theorem C44_acknowledged_not_resent cfg es1 c k u es2 i s y n es3 es4 d q2 v w' o r :
  not_served (state cfg es1) c -> accepts cfg k -> presented k <> [] -> alone cfg es1 (presented k) ->
  Forall (avoids (presented k)) es2 -> (forall x y z, ~ In (EFirst c x y z) es2) ->
  let w2 := state cfg (es1 ++ EFirst c (Some (Connect k)) u true :: es2) in
  serves w2 c i s -> acknowledges n y ->
  Forall (avoids (presented k)) es3 ->
  (forall r, In (Sent c (Publish r)) (snd (run cfg es3 (fst (step cfg w2 (EPacket c y))))) -> pb_packet_id r <> Some n) ->
  Forall (avoids (presented k)) es4 ->
  let w := state cfg (es1 ++ EFirst c (Some (Connect k)) u true :: es2 ++ EPacket c y :: es3 ++ ERestart :: es4) in
  not_served w d -> accepts cfg q2 -> presented q2 = presented k -> cf_clean_start (c_flags q2) = false ->
  step cfg w (EFirst d (Some (Connect q2)) v true) = (w', o) ->
  In (Sent d (Publish r)) o -> pb_packet_id r <> Some n.
Proof.
  intros Hn Ha Hne Hal Hav2 Hf2 w2 Hsv Hack Hav3 Hr3 Hav4 w Hnd Hq Hpq Hqc H Hr.
  destruct (connect_alone cfg es1 c k u Hn Ha Hne Hal) as (i0 & Hex & Hcu & Hss & _).
  assert (Hwf2 : wf w2) by apply state_wf. unfold w2 in *. clear w2. rewrite state_connect in *.
  set (w1 := state cfg (es1 ++ [EFirst c (Some (Connect k)) u true])) in *. assert (Hwf1 : wf w1) by apply state_wf.
  assert (Hnr : forall es, Forall (avoids (presented k)) es -> ~ In ERestart es /\ forall e, In e es -> ~ presents e (presented k)).
  { intros es Hes. rewrite Forall_forall in Hes. split; [intros Hi; destruct (Hes _ Hi) as [Hx _]; congruence|].
    intros e He. apply avoids_presents, Hes, He. }
  destruct (Hnr _ Hav2) as [Hr2 Hp2].
  set (w2 := fst (run cfg es2 w1)) in *.
  pose proof (exclusive_run cfg es2 w1 i0 (presented k) Hwf1 Hav2 Hex) as Hex2. fold w2 in Hex2.
  pose proof (stored_some_run cfg es2 w1 (presented k) Hwf1 Hav2 Hss) as Hss2. fold w2 in Hss2.
  destruct (step cfg w2 (EPacket c y)) as [w3 o3] eqn:E3. cbn [fst snd] in Hr3.
  destruct (current_run cfg es2 w1 c i0 (presented k) Hwf1 Hcu Hr2 Hf2 Hp2) as [Hcu2|Hx].
  2:{ exfalso. destruct Hsv as [Hc _]. fold w2 in Hx. unfold not_served in Hx. congruence. }
  fold w2 in Hcu2. pose proof (current_only _ _ _ _ Hwf2 Hcu2) as Hou2.
  assert (i = i0) by (destruct Hcu2 as [[U1 _ _] _]; destruct Hsv as [Hs _]; congruence). subst i.
  assert (Hids : se_client_id s = presented k).
  { destruct (ex_session _ _ _ Hex2) as (s2 & Hs2 & Hid2). destruct Hsv. congruence. }
  assert (Hav0 : avoids (presented k) (EPacket c y)) by (split; [discriminate|intros; discriminate]).
  assert (Hst3 : mem_get_inflight (presented k) n (w_store w3) = None).
  { destruct Hack as (a & Ey & Ea).
    assert (Hy : forall dd, y <> Disconnect dd) by (destruct Ey as [-> | ->]; discriminate).
    rewrite (step_packet cfg w2 c i0 s y Hsv Hy) in E3. unfold packet_step in E3.
    destruct Ey as [-> | ->]; simpl in E3; injection E3 as <- _; unfold w_store at 1; cbn [w_broker set_store set_broker bk_store];
      rewrite get_inflight_remove; cbn [se_client_id set_unacked set_pubrecs]; rewrite Hids, bytes_eqb_refl, Ea, N.eqb_refl; reflexivity. }
  assert (Hwf3 : wf w3) by (pose proof (run_wf cfg [EPacket c y] w2 Hwf2) as Hx; rewrite run_cons, E3 in Hx; exact Hx).
  assert (Hex3 : exclusive w3 i0 (presented k)) by (exact (exclusive_step _ _ _ _ _ _ _ Hwf2 Hav0 E3 Hex2)).
  assert (Hou3 : only_user w3 c i0 (presented k)) by (exact (only_user_step _ _ _ _ _ _ _ _ Hwf2 Hav0 E3 Hou2)).
  assert (Hss3 : mem_load_session (presented k) (w_store w3) <> None).
  { pose proof (stored_some_run cfg [EPacket c y] w2 (presented k) Hwf2 (Forall_cons _ Hav0 (Forall_nil _)) Hss2) as Hx.
    rewrite run_cons, E3 in Hx. exact Hx. }
  assert (Hst4 : mem_get_inflight (presented k) n (w_store (fst (run cfg es3 w3))) = None) by (apply (no_inflight_run cfg es3 n w3 c i0 (presented k)); auto).
  assert (Hss4 : mem_load_session (presented k) (w_store (fst (run cfg es3 w3))) <> None) by (apply stored_some_run; auto).
  set (w4 := fst (run cfg es3 w3)) in *. assert (Hwf4 : wf w4) by (apply run_wf; auto).
  assert (Hw : w = fst (run cfg es4 (restart w4))).
  { unfold w, w4. rewrite state_connect. fold w1. rewrite run_app. cbn [fst]. fold w2. rewrite run_cons, E3. cbn [fst]. rewrite run_app. cbn [fst].
    rewrite run_cons. reflexivity. }
  destruct (back_after_restart cfg w4 (presented k) es4 Hwf4 Hav4) as (B1 & B2 & B3 & B4). rewrite <- Hw in B1, B2, B3, B4.
  specialize (B4 n). rewrite Hst4 in B4. apply authenticated_iff in Hq.
  destruct (mem_load_session (presented k) (w_store w4)) as [st|] eqn:Est; [|congruence]. rewrite <- Hpq in B2, B3, B4.
  destruct (resume_from_store cfg w d q2 v w' o B1 Hnd Hq Hqc B2 H st B3) as (j & s' & x & _ & _ & _ & -> & _).
  destruct Hr as [Hr|Hr]; [discriminate|]. apply in_map_iff in Hr. destruct Hr as (z & Ez & Hz). injection Ez as <-.
  intros Hc. injection Hc as Hc. revert Hz. apply (inflight_absent cfg w _ n z); auto. apply state_reachable.
Qed.
Print Assumptions C44_acknowledged_not_resent.
Example C44_ex : let es2 := [ex_sub 1 "t"; ex_first 2 (ex_connect "b" true); ex_pub 2 AtLeastOnce (Some 9) "t" "v"] in
  alone ex_open [] (str "a") /\ Forall (avoids (str "a")) es2
  /\ (exists q, snd (step ex_open (state ex_open (ex_first 1 (ex_connect "a" false) :: es2)) (EOut 1 (str "t"))) = [Sent 1 (Publish q)]
        /\ pb_packet_id q = Some 9 /\ pb_qos q = AtLeastOnce)
  /\ acknowledges 9 (PubAck (ack 9))
  /\ (exists w' x q, step ex_open (state ex_open (ex_first 1 (ex_connect "a" false) :: es2 ++ EOut 1 (str "t") :: [] ++ ERestart :: [])) (ex_first 3 (ex_connect "a" false))
       = (w', [Sent 3 (ConnAck x); Sent 3 (Publish q)]))
  /\ (exists w' x, step ex_open (state ex_open (ex_first 1 (ex_connect "a" false) :: (es2 ++ [EOut 1 (str "t")]) ++ EPacket 1 (PubAck (ack 9)) :: [] ++ ERestart :: [])) (ex_first 3 (ex_connect "a" false))
       = (w', [Sent 3 (ConnAck x)])).
Proof.
  split; [split; [intros d q (es1 & u & es2 & H & _); destruct es1; discriminate|intros d q v a (es1 & es2 & H & _); destruct es1; discriminate]|].
  split; [repeat constructor; try discriminate; intros; try discriminate; try (injection H as <- <- <- <-); vm_compute; discriminate|].
  split; [eexists; split; [vm_compute; reflexivity|split; reflexivity]|].
  split; [exists (ack 9); split; [left; reflexivity|reflexivity]|].
  split; do 2 eexists; [eexists|]; vm_compute; reflexivity.
Qed.
