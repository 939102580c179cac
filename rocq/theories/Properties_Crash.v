(** Properties C48, C77 and C78: what survives a crash of the broker at any point, with a
    store that keeps its contents. Each event of Server.v is taken apart into its storage calls
    and packet writes (Crash.v). *)
From Coq Require Import String.
From Verif Require Import Base Utf8 Codec SpecCodec Tac CodecFacts Str Maps Topic SpecTopic TopicFacts Property PacketProps Packets
  TopicTree TreeFacts Storage SpecStorage StorageFacts Broker SpecBroker BrokerFacts Auth Session Server SpecServer SessionFacts ServerFacts
  HandlerFacts HistoryFacts ProvenanceFacts WorldFacts DeliveryFacts StoreFacts ConnectFacts ResumeFacts Crash CrashFacts Examples.
From Coq Require Import Lia.
Local Open Scope list_scope.

(** ** Vocabulary *)
(** The process handles [e] in world [w], some storage calls fail, and it crashes (or ends the
    handling) after [n] calls and writes, leaving store [st] and having sent [o]. *)
Definition crashes (cfg : config) (w : world) (e : event) (faults : list bool) (n : nat) (st : mem_store) (o : list output) : Prop :=
  exec n faults (program cfg w e) (w_store w) = (st, o).
(** The SUBACK [a] grants [f], which [p] asked for. *)
Definition grants (p : subscribe_packet) (a : suback_packet) (f : bytes) : Prop :=
  exists m opt r, nth_error (sb_payload p) m = Some (f, opt) /\ nth_error (sa_payload a) m = Some r
    /\ (r = GrantedQoS0 \/ r = GrantedQoS1 \/ r = GrantedQoS2).
(** A client with identifier [id] connects to the new process, without clean start, and is
    accepted: world [w'], packets [o]. *)
Definition comes_back (cfg : config) (w : world) (id : bytes) (d : nat) (w' : world) (o : list output) : Prop :=
  exists q v, not_served w d /\ accepts cfg q /\ presented q = id /\ cf_clean_start (c_flags q) = false
    /\ step cfg w (EFirst d (Some (Connect q)) v true) = (w', o).

(** ** The model is Server.v *)
(** Without failures and with enough steps, the store and the packets are those of Server.v. *)
Theorem C48_refines cfg w e w' o : reachable cfg w -> step cfg w e = (w', o) ->
  exists n0, forall n, (n0 <= n)%nat ->
    crashes cfg w e [] n (w_store w') (filter (fun x => match x with Sent _ _ => true | _ => false end) o).
Proof.
  intros Hr H. exists (size (program cfg w e)). intros n Hn. unfold crashes. rewrite exec_full by exact Hn.
  apply exec_step; [apply (reachable_wf cfg w Hr)|exact H].
Qed.
Print Assumptions C48_refines.

(** ** Lemmas *)
Lemma exec_read_n fs next fail : forall n st, exec n [] (read_retained fs next fail) st = exec (n - length fs) [] next st.
Proof.
  induction fs as [|f fs IH]; intros n st; cbn [read_retained length]; [now rewrite Nat.sub_0_r|].
  destruct n as [|n]; [reflexivity|]. cbn [exec tl mem_step snd]. rewrite IH. reflexivity.
Qed.
Definition stored (id : bytes) (st : mem_store) : list bytes :=
  match mem_load_session id st with Some x => ss_subscriptions x | None => [] end.
Lemma comes_back_subs cfg st id d w' o : comes_back cfg (recover st) id d w' o ->
  exists j s', serves w' d j s' /\ forall f, subscribed s' f <-> In f (stored id st).
Proof.
  intros (q & v & Hn & Ha & <- & Hcl & H). apply authenticated_iff in Ha.
  assert (Hwf : wf (recover st)) by (split; intros ? ? E; discriminate).
  destruct (mem_load_session (presented q) st) as [x|] eqn:Ex.
  - destruct (resume_from_store cfg (recover st) d q v w' o Hwf Hn Ha Hcl eq_refl H x Ex) as (i & s & y & R1 & _ & R3 & _).
    exists i, s. split; [exact R1|]. unfold stored. now rewrite Ex.
  - destruct (connect_accept _ _ _ _ _ _ _ Hwf Hn Ha H) as (i & subs & wl & infl & s & s1 & Hac).
    pose proof (ac_entered _ _ _ _ _ _ _ _ _ _ _ _ _ Hac) as Hen. inversion Hen as [s0 Hc Hx Hi|? ? ? Hl Hor _ Hld]; subst; [discriminate|].
    destruct (Hld Hcl) as (Hsubs & _ & _). unfold presented in Ex. change (w_store (recover st)) with st in Hsubs. rewrite Ex in Hsubs.
    destruct (ac_restore _ _ _ _ _ _ _ _ _ _ _ _ _ Hac) as (b0 & _ & _ & Hrs). rewrite Hsubs in Hrs. cbn in Hrs. injection Hrs as Hs1 _.
    eexists. eexists. split; [split; [rewrite (ac_conns _ _ _ _ _ _ _ _ _ _ _ _ _ Hac); apply aget_put_same, nateqb_spec|apply (ac_session _ _ _ _ _ _ _ _ _ _ _ _ _ Hac)]|].
    intros f. unfold stored, presented. rewrite Ex.
    assert (Hz : se_subs s1 = []) by (rewrite <- Hs1; unfold begin; destruct (cl_client_id _); reflexivity).
    destruct wl; unfold subscribed; cbn [set_will se_subs]; rewrite Hz; reflexivity.
Qed.

(** ** C48 *)
(** A SUBACK is sent only once the subscriptions are in the store: after a crash at any point
    of the handling, if the SUBACK was sent then the client that comes back has every filter it
    grants, and every filter the client had before. Missing for the full property: the failure
    of a storage call, and what happens to the stored list later (both refuted below). *)
Theorem C48_suback_partial cfg w c i s p n st o a f :
  reachable cfg w -> serves w c i s -> Forall (fun x => utf8 (fst x)) (sb_payload p) ->
  crashes cfg w (EPacket c (Subscribe p)) [] n st o -> In (Sent c (SubAck a)) o -> grants p a f \/ subscribed s f ->
  forall d w' o', comes_back cfg (recover st) (se_client_id s) d w' o' -> exists j s', serves w' d j s' /\ subscribed s' f.
Proof.
  intros Hr Hs Hu Hx Ha Hf d w' o' Hb.
  destruct (step cfg w (EPacket c (Subscribe p))) as [w2 o2] eqn:E.
  destruct (subscribe_step _ _ _ _ _ _ _ _ Hs Hu E) as (s2 & codes & Ho2 & Hcodes & Hs2 & _ & Hsub & _ & _ & _ & _ & _ & _ & _ & Hst).
  assert (Hall : st = w_store w2 /\ o = o2).
  { pose proof (exec_step cfg w _ _ _ (reachable_wf cfg w Hr) E) as Hf2. unfold crashes, program in *. destruct Hs as [Hc Hi]. rewrite Hc, Hi in *.
    unfold packet_prog in *. cbn [process_incoming inflight_completed is_subscription_change] in *.
    destruct (handle_subscribe p s (w_broker w)) as [[r s3] b3] eqn:Eh.
    assert (Hr3 : exists y, r = Ok (Some y)). { unfold handle_subscribe in Eh. destruct (subscribe_loop _ _ _) as [[? ?] ?]. inv Eh. eauto. }
    destruct Hr3 as (y & ->). rewrite exec_read_n in Hx. rewrite exec_read in Hf2. cbn [exec_all] in Hf2.
    destruct (n - length (valid_filters (sb_payload p)))%nat as [|[|m]]; cbn [exec tl] in Hx.
    - injection Hx as <- <-. destruct Ha.
    - injection Hx as <- <-. destruct Ha.
    - subst o2. cbn [sends filter] in Hf2. assert (Hd : forall k z, exec k [] Done z = (z, [])) by (intros [|]; reflexivity).
      rewrite Hd in Hx. injection Hx as <- <-. injection Hf2 as <- <-. auto. }
  destruct Hall as [-> ->]. subst o2. destruct Ha as [[= <-]|[]].
  assert (Hf2 : subscribed s2 f).
  { apply Hsub. destruct Hf as [(m & opt & r & H1 & H2 & H3)|Hf]; [right|now left]. cbn [sa_payload] in H2.
    split; [apply in_map_iff; exists (f, opt); split; [reflexivity|eapply nth_error_In; eauto]|].
    clear - Hcodes H1 H2 H3. revert m H1 H2. induction Hcodes as [|x y xs ys Hxy _ IH]; intros [|m] H1 H2; try discriminate; cbn in H1, H2; [|eauto].
    injection H1 as ->. injection H2 as ->. destruct Hxy as [[Hxy _]|[_ ->]]; [exact Hxy|]. destruct H3 as [|[|]]; discriminate. }
  destruct (comes_back_subs _ _ _ _ _ _ Hb) as (j & s' & Hj & Hj2). exists j, s'. split; [exact Hj|]. apply Hj2.
  unfold stored. rewrite Hst, bytes_eqb_refl. exact Hf2.
Qed.
Print Assumptions C48_suback_partial.
Example C48_ex : let w := ex_world [ex_first 1 (ex_connect "a" false); ex_sub 1 "u"] in
  let p := Mk_subscribe_packet 7 None [(str "t", ex_options); (str "a+", ex_options)] in
  reachable ex_open w /\ Forall (fun x => utf8 (fst x)) (sb_payload p)
  /\ (exists s, serves w 1 0 s /\ subscribed s (str "u") /\ se_client_id s = str "a")
  /\ (exists st a, crashes ex_open w (EPacket 1 (Subscribe p)) [] 3 st [Sent 1 (SubAck a)] /\ grants p a (str "t")
        /\ exists w' o', comes_back ex_open (recover st) (str "a") 5 w' o')
  /\ (exists st, crashes ex_open w (EPacket 1 (Subscribe p)) [] 2 st []).
Proof.
  split; [eexists; reflexivity|]. split; [repeat (apply Forall_cons || apply Forall_nil); apply utf8_valid_iff; vm_compute; reflexivity|].
  split; [eexists; split; [split; vm_compute; reflexivity|split; [left; reflexivity|reflexivity]]|].
  split.
  - do 2 eexists. split; [vm_compute; reflexivity|]. split; [exists 0%nat; do 2 eexists; split; [reflexivity|split; [reflexivity|auto]]|].
    do 2 eexists. exists (ex_connect "a" false), []. split; [reflexivity|]. split; [left; reflexivity|]. split; [reflexivity|]. split; [reflexivity|].
    vm_compute. reflexivity.
  - eexists. vm_compute. reflexivity.
Qed.

(** At every crash point, without failures, each entry of the store is the one before or the
    one after the event; except that a clean start deletes the session and the will of its
    client first, and a PUBLISH that ends its connection may be followed by the will. *)
Theorem C48_crash_points cfg w e w' o n st o' : reachable cfg w -> step cfg w e = (w', o) -> crashes cfg w e [] n st o' ->
  (forall id, (forall c q u a, e = EFirst c (Some (Connect q)) u a -> cf_clean_start (c_flags q) = true -> presented q <> id) ->
     (mem_load_session id st = mem_load_session id (w_store w) \/ mem_load_session id st = mem_load_session id (w_store w'))
     /\ (mem_get_will id st = mem_get_will id (w_store w) \/ mem_get_will id st = mem_get_will id (w_store w')))
  /\ (forall id m, mem_get_inflight id m st = mem_get_inflight id m (w_store w) \/ mem_get_inflight id m st = mem_get_inflight id m (w_store w'))
  /\ (forall t, (forall c p, e = EPacket c (Publish p) -> pb_qos p = AtMostOnce \/ (pb_qos p <> QInvalid /\ pb_packet_id p <> None)) ->
        aget bytes_eqb t (ms_retained st) = aget bytes_eqb t (ms_retained (w_store w))
        \/ aget bytes_eqb t (ms_retained st) = aget bytes_eqb t (ms_retained (w_store w'))).
Proof.
  intros Hr H Hx. unfold crashes in Hx. pose proof (exec_step cfg w e w' o (reachable_wf cfg w Hr) H) as Hf.
  assert (K : forall k, clean_of k e \/ fatal_publish k e \/ entry k st = entry k (w_store w) \/ entry k st = entry k (w_store w')).
  { intros k. destruct (once_program cfg w e k) as [Hc|[Hc|Ho]]; auto. right; right.
    pose proof (once_entry k _ Ho n (w_store w)) as Hk. rewrite Hx, Hf in Hk. exact Hk. }
  split; [|split].
  - intros id Hid. split.
    + destruct (K (KSession id)) as [(c & q & u & a & id' & He & Hcl & Hp & Hk)|[(c & p & t & _ & Hk & _)|Hk]]; try discriminate.
      * exfalso. destruct Hk as [[= ->]|Hk]; [|discriminate]. exact (Hid _ _ _ _ He Hcl Hp).
      * cbn in Hk. destruct Hk as [[= ->]|[= ->]]; auto.
    + destruct (K (KWill id)) as [(c & q & u & a & id' & He & Hcl & Hp & Hk)|[(c & p & t & _ & Hk & _)|Hk]]; try discriminate.
      * exfalso. destruct Hk as [Hk|[= ->]]; [discriminate|]. exact (Hid _ _ _ _ He Hcl Hp).
      * cbn in Hk. destruct Hk as [[= ->]|[= ->]]; auto.
  - intros id m. destruct (K (KInflight id m)) as [(c & q & u & a & id' & He & Hcl & Hp & [Hk|Hk])|[(c & p & t & _ & Hk & _)|Hk]]; try discriminate.
    cbn in Hk. destruct Hk as [[= ->]|[= ->]]; auto.
  - intros t Ht. destruct (K (KRetained t)) as [(c & q & u & a & id' & He & Hcl & Hp & [Hk|Hk])|[(c & p & t' & He & Hk & Hq)|Hk]]; try discriminate.
    + exfalso. destruct (Ht _ _ He) as [Hz|[H1 H2]]; destruct Hq as [Hq|[Hq1 Hq2]]; congruence.
    + cbn in Hk. destruct Hk as [[= ->]|[= ->]]; auto.
Qed.
Print Assumptions C48_crash_points.
(** So the filters of a client that comes back after a crash are those it would have after a
    restart just before or just after the event; C43_restart_partial says which these are. *)
Theorem C48_crash_is_a_restart cfg w e w2 o2 n st o id d w' o' :
  reachable cfg w -> step cfg w e = (w2, o2) -> crashes cfg w e [] n st o ->
  (forall c q u a, e = EFirst c (Some (Connect q)) u a -> cf_clean_start (c_flags q) = true -> presented q <> id) ->
  comes_back cfg (recover st) id d w' o' ->
  exists wb, (wb = w \/ wb = w2) /\ exists j s', serves w' d j s' /\
    forall w'' o'', comes_back cfg (restart wb) id d w'' o'' -> exists k s'', serves w'' d k s'' /\ forall f, subscribed s' f <-> subscribed s'' f.
Proof.
  intros Hr H Hx Hid Hb. destruct (C48_crash_points _ _ _ _ _ _ _ _ Hr H Hx) as (H1 & _ & _). destruct (H1 id Hid) as [Hs _].
  destruct (comes_back_subs _ _ _ _ _ _ Hb) as (j & s' & Hj & Hj2).
  assert (G : forall wb, mem_load_session id st = mem_load_session id (w_store wb) ->
    forall w'' o'', comes_back cfg (restart wb) id d w'' o'' -> exists k s'', serves w'' d k s'' /\ forall f, subscribed s' f <-> subscribed s'' f).
  { intros wb Hwb w'' o'' Hb2. change (restart wb) with (recover (w_store wb)) in Hb2.
    destruct (comes_back_subs _ _ _ _ _ _ Hb2) as (k & s'' & Hk & Hk2). exists k, s''. split; [exact Hk|].
    intros f. rewrite Hj2, Hk2. unfold stored. now rewrite Hwb. }
  destruct Hs as [Hs|Hs]; [exists w|exists w2]; (split; [auto|]; exists j, s'; split; [exact Hj|]; apply G; exact Hs).
Qed.
Print Assumptions C48_crash_is_a_restart.
Example C48_ex2 : let w := ex_world [ex_first 1 (ex_connect "a" false); ex_sub 1 "u"] in
  exists w2 o2 st w' o', step ex_open w (ex_unsub 1 "u") = (w2, o2) /\ crashes ex_open w (ex_unsub 1 "u") [] 1 st []
  /\ comes_back ex_open (recover st) (str "a") 5 w' o' /\ mem_load_session (str "a") st <> mem_load_session (str "a") (w_store w).
Proof.
  do 5 eexists. split; [vm_compute; reflexivity|]. split; [vm_compute; reflexivity|]. split; [|vm_compute; discriminate].
  exists (ex_connect "a" false), []. split; [reflexivity|]. split; [left; reflexivity|]. split; [reflexivity|]. split; [reflexivity|].
  vm_compute. reflexivity.
Qed.

(** False if the store fails: the error is dropped and the SUBACK is sent. *)
Theorem C48_failing_store_refuted : exists w p st a f s d w' o',
  reachable ex_open w /\ serves w 1 0 s /\ crashes ex_open w (EPacket 1 (Subscribe p)) [false; true] 3 st [Sent 1 (SubAck a)] /\ grants p a f
  /\ comes_back ex_open (recover st) (se_client_id s) d w' o' /\ forall j s', serves w' d j s' -> ~ subscribed s' f.
Proof.
  exists (ex_world [ex_first 1 (ex_connect "a" false)]), (Mk_subscribe_packet 7 None [(str "t", ex_options)]).
  do 2 eexists. exists (str "t"). do 4 eexists. split; [eexists; reflexivity|]. split; [split; vm_compute; reflexivity|].
  split; [vm_compute; reflexivity|]. split; [exists 0%nat; do 2 eexists; split; [reflexivity|split; [reflexivity|auto]]|].
  split.
  - exists (ex_connect "a" false), []. split; [|split; [left; reflexivity|split; [reflexivity|split; [reflexivity|vm_compute; reflexivity]]]].
    instantiate (1 := 5%nat). reflexivity.
  - intros j s' [H1 H2]. vm_compute in H1. injection H1 as <-. vm_compute in H2. injection H2 as <-. vm_compute. tauto.
Qed.
Print Assumptions C48_failing_store_refuted.
(** A failing load when the client comes back is worse: the client is told there is no session
    and an empty list is stored over the old one. *)
Theorem C48_failing_load_refuted : exists w q st x,
  reachable ex_open w /\ mem_load_session (presented q) (w_store w) = Some (Mk_session_state (presented q) [str "t"] false) /\ cf_clean_start (c_flags q) = false
  /\ crashes ex_open w (EFirst 2 (Some (Connect q)) [] true) [true] 3 st [Sent 2 (ConnAck x)]
  /\ ca_session_present x = false /\ mem_load_session (presented q) st = Some (Mk_session_state (presented q) [] false).
Proof.
  exists (ex_world [ex_first 1 (ex_connect "a" false); ex_sub 1 "t"; ERestart]), (ex_connect "a" false).
  do 2 eexists. split; [eexists; reflexivity|]. split; [vm_compute; reflexivity|]. split; [reflexivity|].
  split; [vm_compute; reflexivity|]. split; vm_compute; reflexivity.
Qed.
Print Assumptions C48_failing_load_refuted.
(** False over histories, without any failure: the client subscribes and is acknowledged,
    loses the connection and resumes; that stores an empty list, which a crash makes final. *)
Theorem C48_later_resume_refuted : exists es f o w' o' st o2,
  step ex_open (state ex_open [ex_first 1 (ex_connect "a" false)]) (ex_sub 1 "t") = (state ex_open [ex_first 1 (ex_connect "a" false); ex_sub 1 "t"], [o])
  /\ (exists p a, ex_sub 1 "t" = EPacket 1 (Subscribe p) /\ o = Sent 1 (SubAck a) /\ grants p a f)
  /\ es = [ex_first 1 (ex_connect "a" false); ex_sub 1 "t"; EEnd 1]
  /\ crashes ex_open (state ex_open es) (ex_first 2 (ex_connect "a" false)) [] 2 st o2
  /\ comes_back ex_open (recover st) (str "a") 3 w' o' /\ forall j s', serves w' 3 j s' -> ~ subscribed s' f.
Proof.
  eexists. exists (str "t"). do 5 eexists. split; [vm_compute; reflexivity|].
  split; [do 2 eexists; split; [reflexivity|]; split; [reflexivity|]; exists 0%nat; do 2 eexists; split; [reflexivity|split; [reflexivity|auto]]|].
  split; [reflexivity|]. split; [vm_compute; reflexivity|]. split.
  - exists (ex_connect "a" false), []. split; [reflexivity|split; [left; reflexivity|split; [reflexivity|split; [reflexivity|vm_compute; reflexivity]]]].
  - intros j s' [H1 H2]. vm_compute in H1. injection H1 as <-. vm_compute in H2. injection H2 as <-. vm_compute. tauto.
Qed.
Print Assumptions C48_later_resume_refuted.

(** ** C77: a retained PUBLISH is acknowledged only once it is stored, whatever fails *)
Lemma end_prog_silent s : forall n faults st st' o, exec n faults (end_prog s) st = (st', o) -> o = [].
Proof.
  intros n faults st st' o. unfold end_prog. assert (Hd : forall k l z, exec k l Done z = (z, [])) by (intros [|]; reflexivity).
  assert (Ha : forall k l z x, snd (exec k l (Attempt x Done) z) = []).
  { intros [|k] l z x; [reflexivity|]. cbn. destruct l as [|[] l]; rewrite Hd; reflexivity. }
  destruct (se_will s) as [x|]; [|rewrite Hd; congruence].
  destruct (retained_call (wl_topic x) (will_message x)) as [y|].
  - destruct n as [|n]; cbn [exec]; [congruence|]. destruct faults as [|[] l]; intros H;
      match type of H with exec ?k ?l (Attempt ?x Done) ?z = _ => pose proof (Ha k l z x) as H0 end; rewrite H in H0; exact H0.
  - intros H. match type of H with exec ?k ?l (Attempt ?x Done) ?z = _ => pose proof (Ha k l z x) as H0 end; rewrite H in H0; exact H0.
Qed.
Theorem C77_acknowledged_retained cfg w c i s p faults n st o x :
  serves w c i s -> pb_retain p = true -> crashes cfg w (EPacket c (Publish p)) faults n st o -> In (Sent c x) o ->
  aget bytes_eqb (pb_topic p) (ms_retained st) =
    match pb_payload p with
    | None | Some [] => None
    | Some y => Some (Mk_message (pb_packet_id p) (pb_topic p) (pb_dup p) (pb_qos p) false (Some y))
    end.
Proof.
  intros [Hc Hi] Hr Hx Hin. unfold crashes, program in Hx. rewrite Hc, Hi in Hx. unfold packet_prog in Hx. cbn [process_incoming inflight_completed is_subscription_change] in Hx.
  destruct (handle_publish p s (w_broker w)) as [[r s'] b'] eqn:Eh.
  assert (Hs : forall k l z, snd (exec k l (end_prog s) z) = [] /\ snd (exec k l (end_prog s') z) = []).
  { intros k l z. destruct (exec k l (end_prog s) z) eqn:E1, (exec k l (end_prog s') z) eqn:E2. split; eapply end_prog_silent; eauto. }
  assert (Hdone : forall k l z, exec k l Done z = (z, [])) by (intros [|]; reflexivity).
  assert (Hw : forall y k l z z' o1, exec k l (match y with Some y => Write c y Done | None => Done end) z = (z', o1) -> z' = z).
  { intros [y|] [|k] l z z' o1; cbn; rewrite ?Hdone; congruence. }
  set (rest := match r with Ok _ => _ | Err _ => _ | Panic => _ end) in Hx.
  destruct (validate_publish_topic (pb_topic p)) eqn:Ev.
  { (* refused: nothing is sent *)
    unfold handle_publish in Eh. rewrite Ev in Eh. injection Eh as <- <- <-. unfold rest in Hx.
    pose proof (proj2 (Hs n faults (w_store w))) as H0. rewrite Hx in H0. cbn in H0. subst o. destruct Hin. }
  assert (Hrest : forall k l z z', exec k l rest z = (z', o) -> z' = z).
  { intros k l z z' Hz. unfold rest in Hz. destruct r as [y|er|].
    - eapply Hw; eauto.
    - exfalso. pose proof (proj2 (Hs k l z)) as H0. rewrite Hz in H0. cbn in H0. subst o. destruct Hin.
    - rewrite Hdone in Hz. congruence. }
  unfold retained_call in Hx. cbn [message_of mg_retain mg_payload] in Hx. rewrite Hr in Hx.
  assert (Hreq : forall op, exec n faults (Require op rest (end_prog s)) (w_store w) = (st, o) -> st = snd (mem_step (w_store w) op)).
  { intros op Ho. destruct n as [|n]; [cbn in Ho; injection Ho as <- <-; destruct Hin|]. cbn [exec] in Ho.
    destruct faults as [|[] l].
    - eapply Hrest; eauto.
    - exfalso. pose proof (proj1 (Hs n l (w_store w))) as H0. rewrite Ho in H0. cbn in H0. subst o. destruct Hin.
    - eapply Hrest; eauto. }
  destruct (pb_payload p) as [[|y ys]|] eqn:Ep; apply Hreq in Hx; subst st; cbn [mem_step snd mem_store_retained ms_retained];
    [apply aget_del_same, beqb_spec| |apply aget_del_same, beqb_spec].
  rewrite aget_put_same by apply beqb_spec. unfold message_of, with_retain. cbn. rewrite Ep. reflexivity.
Qed.
Print Assumptions C77_acknowledged_retained.
Example C77_ex : let w := ex_world [ex_first 1 (ex_connect_will "a" false "w" "p")] in
  let p := ex_publish AtLeastOnce (Some 3) true "t" "x" in
  (exists s, serves w 1 0 s)
  /\ (exists st a, crashes ex_open w (EPacket 1 (Publish p)) [] 2 st [Sent 1 (PubAck a)]
        /\ aget bytes_eqb (str "t") (ms_retained st) = Some (Mk_message (Some 3) (str "t") false AtLeastOnce false (Some (str "x"))))
  /\ (exists st, crashes ex_open w (EPacket 1 (Publish p)) [true] 9 st []).
Proof.
  split; [eexists; split; vm_compute; reflexivity|]. split; [|eexists; vm_compute; reflexivity].
  do 2 eexists. split; vm_compute; reflexivity.
Qed.

(** ** C78: a QoS 1 or 2 message that was sent is sent again after a crash *)
(** The message is in the store before it is written. Missing: a failing store (refuted below). *)
Theorem C78_sent_message_survives_partial cfg w c i s f n st o q m d w' o' :
  reachable cfg w -> serves w c i s -> crashes cfg w (EOut c f) [] n st o -> In (Sent c (Publish q)) o ->
  pb_packet_id q = Some m -> (pb_qos q = AtLeastOnce \/ pb_qos q = ExactlyOnce) ->
  mem_load_session (se_client_id s) (w_store w) <> None ->
  comes_back cfg (recover st) (se_client_id s) d w' o' ->
  In (Sent d (Publish (Mk_publish_packet true (pb_qos q) false (pb_topic q) (Some m) None (pb_payload q)))) o'.
Proof.
  intros Hr [Hc Hi] Hx Hin Hm Hq Hst (k & v & Hn & Ha & Hp & Hcl & H). unfold crashes, program in Hx. rewrite Hc, Hi in Hx.
  assert (Hdone : forall k l z, exec k l Done z = (z, [])) by (intros [|]; reflexivity).
  unfold out_prog in Hx. destruct (process_outgoing f s (w_broker w)) as [[[p|er|] s']|] eqn:Eo; try (rewrite Hdone in Hx; injection Hx as <- <-; destruct Hin; fail).
  pose proof (outgoing_id _ _ _ _ _ Eo) as Hid.
  assert (Hw : forall k z z' o1, exec k [] (Write c (Publish p) Done) z = (z', o1) -> In (Sent c (Publish q)) o1 -> z' = z /\ q = p).
  { intros [|j] z z' o1; cbn; rewrite ?Hdone; intros Hz Hy; injection Hz as <- <-; [destruct Hy|]. destruct Hy as [[= <-]|[]]. auto. }
  assert (Hpq : st = mem_store_inflight (se_client_id s) m (Mk_inflight m (pb_topic q) (pb_payload q) (pb_qos q) (pb_dup q)) (w_store w)).
  { destruct (pb_packet_id p) as [pid|] eqn:Ep.
    - destruct (pb_qos p) eqn:Eq;
        [exfalso; destruct (Hw _ _ _ _ Hx Hin) as [_ ->]; destruct Hq; congruence| | |exfalso; destruct (Hw _ _ _ _ Hx Hin) as [_ ->]; destruct Hq; congruence];
        (destruct n as [|n]; [injection Hx as <- <-; destruct Hin|]; cbn [exec tl] in Hx; destruct (Hw _ _ _ _ Hx Hin) as [-> ->];
         rewrite Ep in Hm; injection Hm as ->; rewrite Eq, Hid; reflexivity).
    - exfalso. destruct (Hw _ _ _ _ Hx Hin) as [_ ->]. congruence. }
  assert (Hwf : wf (recover st)) by (split; intros ? ? E; discriminate). apply authenticated_iff in Ha.
  destruct (mem_load_session (se_client_id s) (w_store w)) as [y|] eqn:Ey; [|congruence].
  assert (Hld : mem_load_session (presented k) (w_store (recover st)) = Some y) by (rewrite Hp, Hpq; exact Ey).
  destruct (resume_from_store cfg (recover st) d k v w' o' Hwf Hn Ha Hcl eq_refl H y Hld) as (j & s2 & x & _ & _ & _ & Ho & _).
  subst o'. right. apply in_map_iff. eexists. split; [|eapply (inflight_all _ m)].
  2:{ rewrite Hp. cbn [w_store recover w_broker bk_store]. rewrite Hpq. unfold mem_get_inflight, mem_store_inflight. cbn.
      rewrite aget_put_same by apply beqb_spec. apply aget_put_same. intros; apply N.eqb_eq. }
  reflexivity.
Qed.
Print Assumptions C78_sent_message_survives_partial.
Definition ex_delivery : world :=
  ex_world [ex_first 1 (ex_connect "a" false); ex_sub 1 "t"; ex_first 2 (ex_connect "b" true); ex_pub 2 AtLeastOnce (Some 9) "t" "x"].
Example C78_ex : (exists s, serves ex_delivery 1 0 s /\ mem_load_session (se_client_id s) (w_store ex_delivery) <> None)
  /\ exists st q w' o', crashes ex_open ex_delivery (EOut 1 (str "t")) [] 2 st [Sent 1 (Publish q)] /\ pb_packet_id q = Some 9 /\ pb_qos q = AtLeastOnce
     /\ comes_back ex_open (recover st) (str "a") 5 w' o'.
Proof.
  split; [eexists; split; [split; vm_compute; reflexivity|vm_compute; discriminate]|].
  do 4 eexists. split; [vm_compute; reflexivity|]. split; [reflexivity|]. split; [reflexivity|].
  exists (ex_connect "a" false), []. split; [reflexivity|split; [left; reflexivity|split; [reflexivity|split; [reflexivity|vm_compute; reflexivity]]]].
Qed.
(** False if the store fails: the message is sent without being stored. *)
Theorem C78_failing_store_refuted : exists w st q x w' s,
  reachable ex_open w /\ serves w 1 0 s /\ crashes ex_open w (EOut 1 (str "t")) [true] 2 st [Sent 1 (Publish q)] /\ pb_packet_id q = Some 9 /\ pb_qos q = AtLeastOnce
  /\ mem_load_session (se_client_id s) (w_store w) <> None /\ comes_back ex_open (recover st) (se_client_id s) 5 w' [Sent 5 (ConnAck x)].
Proof.
  exists ex_delivery. do 5 eexists. split; [eexists; reflexivity|]. split; [split; vm_compute; reflexivity|]. split; [vm_compute; reflexivity|].
  split; [reflexivity|]. split; [reflexivity|]. split; [vm_compute; discriminate|].
  exists (ex_connect "a" false), []. split; [reflexivity|split; [left; reflexivity|split; [reflexivity|split; [reflexivity|vm_compute; reflexivity]]]].
Qed.
Print Assumptions C78_failing_store_refuted.
(** And a message is acknowledged to its publisher before it is stored for its subscribers: a
    crash loses it although both ends use QoS 1. *)
Theorem C78_acknowledged_message_lost_refuted : exists w st a x w' s,
  reachable ex_open w /\ serves w 1 0 s /\ subscribed s (str "t") /\ mem_load_session (se_client_id s) (w_store w) <> None
  /\ crashes ex_open w (ex_pub 2 AtLeastOnce (Some 9) "t" "x") [] 9 st [Sent 2 (PubAck a)] /\ ak_reason a = Success
  /\ comes_back ex_open (recover st) (se_client_id s) 5 w' [Sent 5 (ConnAck x)]
  /\ (forall j s' f, serves w' 5 j s' -> snd (step ex_open w' (EOut 5 f)) = []).
Proof.
  exists (ex_world [ex_first 1 (ex_connect "a" false); ex_sub 1 "t"; ex_first 2 (ex_connect "b" true)]).
  do 5 eexists. split; [eexists; reflexivity|]. split; [split; vm_compute; reflexivity|]. split; [left; reflexivity|].
  split; [vm_compute; discriminate|]. split; [vm_compute; reflexivity|]. split; [reflexivity|]. split.
  - exists (ex_connect "a" false), []. split; [reflexivity|split; [left; reflexivity|split; [reflexivity|split; [reflexivity|vm_compute; reflexivity]]]].
  - intros j s' f [H1 H2]. vm_compute in H1. injection H1 as <-. vm_compute in H2. injection H2 as <-.
    cbn [step]. unfold out_step, process_outgoing. cbn [w_conns w_heap aget Nat.eqb nth_error se_subs].
    destruct (bytes_eqb f _) eqn:E; [|reflexivity]. apply beqb_spec in E. subst f. vm_compute. reflexivity.
Qed.
Print Assumptions C78_acknowledged_message_lost_refuted.
