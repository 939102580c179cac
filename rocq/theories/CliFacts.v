(** Lemmas about the command line client. *)
From Coq Require Import String.
From Verif Require Import Base Utf8 Codec Tac SpecCodec CodecFacts PacketProps Packets Frame Client SpecClient ClientFacts Str Cli SpecCli.

(** ** [lossy] *)

Lemma lossy_valid_n n : forall bs, (List.length bs <= n)%nat -> utf8_valid bs = true -> lossy bs = bs.
Proof.
  induction n as [|n IH]; intros bs Hl Hv; [destruct bs; [reflexivity|cbn in Hl; lia]|].
  destruct bs as [|b1 r1]; [reflexivity|]. cbn [List.length] in Hl. cbn [lossy]. cbn [utf8_valid] in Hv.
  destruct (b1 <? 128) eqn:H1; [f_equal; apply IH; [lia|exact Hv]|].
  destruct r1 as [|b2 r2]; [discriminate|]. cbn [List.length] in Hl.
  destruct (in_range 194 223 b1) eqn:H2.
  { apply andb_prop in Hv. destruct Hv as [-> Hv]. do 2 f_equal. apply IH; [lia|exact Hv]. }
  destruct r2 as [|b3 r3]; [discriminate|]. cbn [List.length] in Hl. unfold lead3, lead4.
  destruct (b1 =? 224) eqn:E0.
  { apply andb_prop in Hv. destruct Hv as [Hv Hr]. apply andb_prop in Hv. destruct Hv as [-> ->]. cbn [andb orb].
    do 3 f_equal. apply IH; [lia|exact Hr]. }
  destruct (in_range 225 236 b1) eqn:E1.
  { apply andb_prop in Hv. destruct Hv as [Hv Hr]. apply andb_prop in Hv. destruct Hv as [-> ->]. cbn [andb orb].
    do 3 f_equal. apply IH; [lia|exact Hr]. }
  destruct (b1 =? 237) eqn:E2.
  { apply andb_prop in Hv. destruct Hv as [Hv Hr]. apply andb_prop in Hv. destruct Hv as [-> ->]. cbn [andb orb].
    do 3 f_equal. apply IH; [lia|exact Hr]. }
  destruct (in_range 238 239 b1) eqn:E3.
  { apply andb_prop in Hv. destruct Hv as [Hv Hr]. apply andb_prop in Hv. destruct Hv as [-> ->]. cbn [andb orb].
    do 3 f_equal. apply IH; [lia|exact Hr]. }
  destruct r3 as [|b4 r4]; [discriminate|]. cbn [List.length] in Hl. cbn [andb orb].
  destruct (b1 =? 240) eqn:F0.
  { apply andb_prop in Hv. destruct Hv as [Hv Hr]. apply andb_prop in Hv. destruct Hv as [Hv ->].
    apply andb_prop in Hv. destruct Hv as [-> ->]. cbn [andb orb]. do 4 f_equal. apply IH; [lia|exact Hr]. }
  destruct (in_range 241 243 b1) eqn:F1.
  { apply andb_prop in Hv. destruct Hv as [Hv Hr]. apply andb_prop in Hv. destruct Hv as [Hv ->].
    apply andb_prop in Hv. destruct Hv as [-> ->]. cbn [andb orb]. do 4 f_equal. apply IH; [lia|exact Hr]. }
  destruct (b1 =? 244) eqn:F2; [|discriminate].
  apply andb_prop in Hv. destruct Hv as [Hv Hr]. apply andb_prop in Hv. destruct Hv as [Hv ->].
  apply andb_prop in Hv. destruct Hv as [-> ->]. cbn [andb orb]. do 4 f_equal. apply IH; [lia|exact Hr].
Qed.

Lemma valid_replacement r : utf8_valid (replacement ++ r) = utf8_valid r.
Proof. reflexivity. Qed.

Lemma lossy_utf8_n n : forall bs, (List.length bs <= n)%nat -> utf8_valid (lossy bs) = true.
Proof.
  induction n as [|n IH]; intros bs Hl; [destruct bs; [reflexivity|cbn in Hl; lia]|].
  destruct bs as [|b1 r1]; [reflexivity|]. cbn [List.length] in Hl. cbn [lossy].
  destruct (b1 <? 128) eqn:H1; [cbn [utf8_valid]; rewrite H1; apply IH; lia|].
  destruct r1 as [|b2 r2]; [reflexivity|].
  cbv zeta.
  assert (Hr1 : utf8_valid (lossy (b2 :: r2)) = true) by (apply IH; lia).
  set (L1 := lossy (b2 :: r2)) in *. cbn [List.length] in Hl.
  assert (Hr2 : utf8_valid (lossy r2) = true) by (apply IH; lia).
  destruct (in_range 194 223 b1) eqn:H2.
  { destruct (is_cont b2) eqn:C; [|exact Hr1]. cbn [utf8_valid]. rewrite H1, H2, C. exact Hr2. }
  destruct (lead3 b1 b2) eqn:L3.
  { destruct r2 as [|b3 r3]; [reflexivity|]. destruct (is_cont b3) eqn:C; [|exact Hr2].
    cbn [List.length] in Hl. assert (Hr3 : utf8_valid (lossy r3) = true) by (apply IH; lia).
    cbn [utf8_valid]. rewrite H1, H2, C, Hr3, !andb_true_r. unfold lead3 in L3.
    destruct (b1 =? 224) eqn:E0; [unfold is_cont, in_range in *; lia|].
    destruct (in_range 225 236 b1) eqn:E1; [unfold is_cont, in_range in *; lia|].
    destruct (b1 =? 237) eqn:E2; [unfold is_cont, in_range in *; lia|].
    destruct (in_range 238 239 b1) eqn:E3; [unfold is_cont, in_range in *; lia|]. discriminate. }
  destruct (lead4 b1 b2) eqn:L4; [|exact Hr1].
  destruct r2 as [|b3 r3]; [reflexivity|]. destruct (is_cont b3) eqn:C; [|exact Hr2].
  cbn [List.length] in Hl. assert (Hr3 : utf8_valid (lossy r3) = true) by (apply IH; lia).
  destruct r3 as [|b4 r4]; [reflexivity|]. destruct (is_cont b4) eqn:C4; [|exact Hr3].
  cbn [List.length] in Hl. assert (Hr4 : utf8_valid (lossy r4) = true) by (apply IH; lia).
  cbn [utf8_valid]. rewrite H1, H2, C, C4, Hr4, !andb_true_r. unfold lead4, is_cont, in_range in *.
  repeat match goal with |- (if ?b then _ else _) = true => destruct b eqn:? end; lia.
Qed.

Lemma lossy_same bs : lossy bs = bs <-> utf8 bs.
Proof.
  rewrite <- utf8_valid_iff. split.
  - intros E. rewrite <- E. apply (lossy_utf8_n (List.length bs)). lia.
  - apply (lossy_valid_n (List.length bs)). lia.
Qed.

(** ** Runs *)
Inductive tcase (t : tool) : phase -> client -> tinput -> phase -> client -> list toutput -> Prop :=
| TCread p c r ok c' out : (forall b, p <> Exited b) -> cstep c (IRead r ok) = Some (c', out) ->
    tcase t p c (Arrives r ok) p c' (map Net out)
| TCtick p c ok c' out : (forall b, p <> Exited b) -> cstep c (ITick ok) = Some (c', out) ->
    tcase t p c (Timer ok) p c' (map Net out)
| TCfirst cmd c ok c' out : cstep c (ICommand cmd ok) = Some (c', out) ->
    tcase t (Asking cmd) c (Served ok) (after_first t (answered_ok out)) c' (map Net out)
| TClast c ok c' out : cstep c (ICommand CmdDisconnect ok) = Some (c', out) ->
    tcase t Leaving c (Served ok) (after_last t (answered_ok out)) c' (map Net out)
| TCtake pt c c' out : t = Subscriber pt -> cstep c IRecv = Some (c', out) ->
    tcase t Listening c Takes (fst (take pt out)) c' (map Net out ++ snd (take pt out))
| TCinterrupt c : tcase t Listening c Interrupt Leaving c [].

Lemma tstep_inv t p c i p' c' out : tstep t p c i = Some (p', c', out) -> tcase t p c i p' c' out.
Proof.
  intros H.
  destruct p as [cmd| | |b]; [..|discriminate]; destruct i as [r ok|ok|ok| |]; cbn [tstep] in H; try discriminate;
    try (match type of H with option_map _ ?x = _ => destruct x as [[c1 out1]|] eqn:E; [|discriminate] end;
         cbn [option_map fst snd] in H; injection H as <- <- <-).
  all: try (apply TCread; [intros; discriminate|exact E]).
  all: try (apply TCtick; [intros; discriminate|exact E]).
  - apply (TCfirst t cmd c ok c1 out1 E).
  - destruct t as [|pt]; [discriminate|]. destruct (cstep c IRecv) as [[c1 out1]|] eqn:E; [|discriminate].
    cbn [option_map fst snd] in H. injection H as <- <- <-. apply (TCtake (Subscriber pt) pt c c1 out1 eq_refl E).
  - injection H as <- <- <-. apply TCinterrupt.
  - apply (TClast t c ok c1 out1 E).
Qed.

Lemma net_app a b : net (a ++ b) = net a ++ net b.
Proof. apply flat_map_app. Qed.
Lemma stdout_app a b : stdout (a ++ b) = stdout a ++ stdout b.
Proof. apply flat_map_app. Qed.
Lemma net_map o : net (map Net o) = o.
Proof. induction o as [|x o IH]; [reflexivity|]. cbn. f_equal. exact IH. Qed.
Lemma stdout_map o : stdout (map Net o) = [].
Proof. induction o as [|x o IH]; [reflexivity|]. exact IH. Qed.
Lemma net_take pt o : net (snd (take pt o)) = [].
Proof. destruct o as [|[] [|]]; try reflexivity; destruct e as [[]|]; reflexivity. Qed.
Lemma requests_app a b : requests (a ++ b) = requests a ++ requests b.
Proof. apply filter_app. Qed.

(** The client library's part of a run. *)
Lemma truns_cruns t p0 is p c outs : truns t p0 is p c outs ->
  exists cis, cruns client_new cis c (net outs) /\ ~ In IDrop cis /\
    publishes_read cis = publishes_arrived is /\ disconnects_read cis = disconnects_arrived is.
Proof.
  induction 1 as [|is p1 c1 outs i p2 c2 out Hr (cis & IH1 & IH2 & IH3 & IH4) Hs].
  - exists []. repeat split; try constructor. intros [].
  - assert (Hx : forall ci o, cstep c1 ci = Some (c2, o) -> ci <> IDrop -> net out = o ->
      publishes_read [ci] = publishes_arrived [i] -> disconnects_read [ci] = disconnects_arrived [i] ->
      exists cis, cruns client_new cis c2 (net (outs ++ out)) /\ ~ In IDrop cis /\
        publishes_read cis = publishes_arrived (is ++ [i]) /\ disconnects_read cis = disconnects_arrived (is ++ [i])).
    { intros ci o Hc Hi Ho Hp Hd. exists (cis ++ [ci]). rewrite net_app, Ho.
      split; [econstructor; eassumption|]. split; [rewrite in_app_iff; intros [Q|[Q|[]]]; congruence|].
      unfold publishes_read, publishes_arrived, disconnects_read, disconnects_arrived in *.
      rewrite !flat_map_app, IH3, IH4, Hp, Hd. split; reflexivity. }
    apply tstep_inv in Hs. inversion Hs; subst.
    + eapply Hx; [eassumption|discriminate|apply net_map|..].
      * destruct r as [[]| | |]; reflexivity.
      * destruct r as [[]| | |]; reflexivity.
    + eapply Hx; [eassumption|discriminate|apply net_map|reflexivity|reflexivity].
    + eapply Hx; [eassumption|discriminate|apply net_map|reflexivity|reflexivity].
    + eapply Hx; [eassumption|discriminate|apply net_map|reflexivity|reflexivity].
    + eapply Hx; [eassumption|discriminate|rewrite net_app, net_map, net_take; apply app_nil_r|reflexivity|reflexivity].
    + exists cis. rewrite app_nil_r. split; [exact IH1|]. split; [exact IH2|].
      unfold publishes_arrived, disconnects_arrived in *. rewrite !flat_map_app. cbn [flat_map]. rewrite !app_nil_r. split; assumption.
Qed.

(** Reading and pinging write no requests. *)
Lemma background_requests c i c' out : cstep c i = Some (c', out) ->
  match i with ICommand _ _ => False | _ => True end -> requests (written out) = [].
Proof.
  intros H Hi. apply cstep_inv in H. inversion H; subst; try contradiction; try reflexivity.
  destruct ok; reflexivity.
Qed.
Lemma background_received c i c' out : cstep c i = Some (c', out) -> i <> IRecv -> received out = [].
Proof.
  intros H Hi. apply cstep_inv in H. inversion H; subst; try congruence; rewrite ?outcome_received, ?wrote_received; reflexivity.
Qed.

(** ** The publisher *)
Definition publish_made (topic payload : bytes) (q : qos) (retain : bool) (k : packet) : Prop :=
  exists id, k = publish_request id topic payload q retain /\ (id = None <-> q = AtMostOnce).

Lemma publish_call c t d q r ok c' out : cstep c (ICommand (CmdPublish t d q r) ok) = Some (c', out) ->
  (answered_ok out = true -> exists k, publish_made t d q r k /\ written out = [k]) /\
  (answered_ok out = false -> written out = []).
Proof.
  intros H. apply cstep_inv in H. inversion H; subst.
  - destruct ok; cbn; (split; [|discriminate || reflexivity]); [|discriminate].
    intros _. eexists. split; [|reflexivity]. exists None. split; [reflexivity|tauto].
  - destruct ok; cbn; (split; [|discriminate || reflexivity]); [|discriminate].
    intros _. eexists. split; [|reflexivity]. eexists. split; [reflexivity|]. split; [discriminate|contradiction].
  - split; [discriminate|reflexivity].
Qed.
Lemma disconnect_call c ok c' out : cstep c (ICommand CmdDisconnect ok) = Some (c', out) ->
  written out = if answered_ok out then [disconnect_request] else [].
Proof. intros H. apply cstep_inv in H. inversion H; subst; [destruct ok|]; reflexivity. Qed.

Definition publisher_inv (t d : bytes) (q : qos) (r : bool) (p : phase) (ks : list packet) : Prop :=
  match p with
  | Asking cmd => cmd = CmdPublish t d q r /\ ks = []
  | Listening => False
  | Leaving => exists k, publish_made t d q r k /\ ks = [k]
  | Exited true => exists k, publish_made t d q r k /\ ks = [k; disconnect_request]
  | Exited false => ks = [] \/ exists k, publish_made t d q r k /\ ks = [k]
  end.

Lemma publisher_run t d q r is p c outs : truns Publisher (Asking (CmdPublish t d q r)) is p c outs ->
  publisher_inv t d q r p (requests (written (net outs))).
Proof.
  induction 1 as [|is p1 c1 outs i p2 c2 out Hr IH Hs]; [split; reflexivity|].
  rewrite net_app, written_app, requests_app. apply tstep_inv in Hs. inversion Hs; subst.
  - rewrite net_map, (background_requests _ _ _ _ H0) by exact I. rewrite app_nil_r. exact IH.
  - rewrite net_map, (background_requests _ _ _ _ H0) by exact I. rewrite app_nil_r. exact IH.
  - destruct IH as [-> IH]. rewrite IH, net_map. destruct (publish_call _ _ _ _ _ _ _ _ H) as [H1 H2].
    unfold after_first. destruct (answered_ok out0).
    + destruct (H1 eq_refl) as (k & Hk & ->). exists k. split; [exact Hk|].
      destruct Hk as (id & -> & _). reflexivity.
    + rewrite (H2 eq_refl). left. reflexivity.
  - destruct IH as (k & Hk & IH). rewrite IH, net_map, (disconnect_call _ _ _ _ H).
    unfold after_last. destruct (answered_ok out0); cbn [publisher_inv].
    + exists k. split; [exact Hk|]. reflexivity.
    + right. exists k. split; [exact Hk|]. reflexivity.
  - discriminate.
  - destruct IH.
Qed.

(** ** The subscriber *)
Definition shown (pt : bool) (e : cevent) : list bytes :=
  match e with Message topic payload _ _ => [message_line pt topic payload] | Disconnected _ => [] end.

(** Without a DISCONNECT from the broker, the only farewell comes last and ends the loop. *)
Lemma farewell_last is c outs : cruns client_new is c outs -> ~ In IDrop is -> disconnects_read is = [] ->
  (farewells (told c outs) = [] \/
   (cl_alive c = false /\ exists es r, told c outs = es ++ [Disconnected r] /\ farewells es = [])).
Proof.
  induction 1 as [|is c1 outs i c2 out Hr IH Hs]; intros Hn Hd; [left; reflexivity|].
  assert (Hn1 : ~ In IDrop is) by (intros Q; apply Hn, in_or_app; auto).
  assert (Hi : i <> IDrop) by (intros ->; apply Hn, in_or_app; right; left; reflexivity).
  unfold disconnects_read in Hd. rewrite flat_map_app in Hd. apply app_eq_nil in Hd. destruct Hd as [Hd1 Hd2].
  specialize (IH Hn1 Hd1). rewrite (told_step _ _ _ _ _ Hs (not_dropped _ _ _ Hr Hn1) Hi).
  destruct (cl_alive c1) eqn:Ha.
  - destruct IH as [IH|[? _]]; [|discriminate].
    apply cstep_inv in Hs. inversion Hs; subst; cbn [reports]; rewrite ?Ha, ?app_nil_r; try (left; exact IH);
      try (right; split; [rewrite report_alive; reflexivity|eexists _, _; split; [reflexivity|exact IH]]).
    + congruence.
    + left. destruct (pb_qos b), (pb_packet_id b); try destruct ok; rewrite farewells_app, IH; reflexivity.
    + left. destruct (pb_qos b), (pb_packet_id b); try destruct ok; rewrite farewells_app, IH; reflexivity.
    + discriminate.
    + destruct k; try contradiction; left; rewrite app_nil_r; exact IH.
  - assert (E : reports c1 i = [] /\ cl_alive c2 = false).
    { apply cstep_inv in Hs. inversion Hs; subst; try (match goal with H : idle _ |- _ => destruct H; congruence end);
        try (split; [reflexivity|assumption]).
      destruct cmd; cbn [reports]; rewrite ?Ha; split; (reflexivity || assumption). }
    destruct E as [-> E2]. rewrite app_nil_r. destruct IH as [IH|[_ IH]]; [left; exact IH|right; split; [exact E2|exact IH]].
Qed.

Definition subscriber_inv (p : phase) (is : list tinput) (c : client) (es : list cevent) : Prop :=
  match p with
  | Asking _ => es = []
  | Listening => farewells es = []
  | Leaving => In Interrupt is \/ farewells es <> [] \/ (cl_queue c = [] /\ cl_alive c = false /\ cl_waiting c = None)
  | Exited true => In Interrupt is \/ farewells es <> [] \/ (cl_queue c = [] /\ cl_alive c = false /\ cl_waiting c = None)
  | Exited false => es = []
  end.

(** An event waits only while the channel is full. *)
Lemma waiting_full is c outs : cruns client_new is c outs -> cl_queue c = [] -> cl_waiting c = None.
Proof.
  induction 1 as [|is c1 outs i c2 out Hr IH Hs]; [reflexivity|].
  assert (R : forall e c0, cl_queue (report e c0) = [] -> cl_waiting c0 = None -> cl_waiting (report e c0) = None).
  { intros e c0. unfold report. destruct (cl_dropped c0); [auto|]. destruct (Nat.ltb _ _) eqn:E; cbn; [auto|].
    intros Q. rewrite Q in E. discriminate. }
  apply cstep_inv in Hs. inversion Hs; subst; intros Q;
    repeat match goal with H : idle _ |- _ => destruct H end; try (apply R; assumption); try assumption; try reflexivity.
  - destruct ok; [apply R; assumption|assumption].
  - apply IH. assumption.
Qed.

Lemma subscriber_run pt ts is p c outs : truns (Subscriber pt) (Asking (CmdSubscribe ts)) is p c outs ->
  subscriber_inv p is c (received (net outs)) /\ stdout outs = flat_map (shown pt) (received (net outs)) /\
  (forall cmd, p = Asking cmd -> cmd = CmdSubscribe ts).
Proof.
  induction 1 as [|is p1 c1 outs i p2 c2 out Hr (IH1 & IH2 & IH3) Hs]; [repeat split; congruence|].
  destruct (truns_cruns _ _ _ _ _ _ Hr) as (cis & Hc & Hn & _).
  assert (Hk : forall ci o, cstep c1 ci = Some (c2, o) -> cl_queue c1 = [] -> cl_alive c1 = false -> cl_waiting c1 = None ->
      ci <> IDrop -> cl_queue c2 = [] /\ cl_alive c2 = false /\ cl_waiting c2 = None).
  { intros ci o H Hq Ha Hw Hi. apply cstep_inv in H. inversion H; subst;
      try (match goal with H : idle _ |- _ => destruct H; congruence end); try congruence; auto. }
  rewrite net_app, stdout_app, received_app, flat_map_app, IH2. apply tstep_inv in Hs. inversion Hs; subst.
  - rewrite net_map, stdout_map, (background_received _ _ _ _ H0) by discriminate. rewrite !app_nil_r.
    split; [|split; [reflexivity|exact IH3]].
    destruct p2 as [| | |[]]; cbn [subscriber_inv] in *; try exact IH1.
    + rewrite in_app_iff. destruct IH1 as [IH1|[IH1|(Q1 & Q2 & Q3)]]; [auto|auto|].
      right. right. eapply Hk; try eassumption; discriminate.
    + exfalso. eapply H. reflexivity.
  - rewrite net_map, stdout_map, (background_received _ _ _ _ H0) by discriminate. rewrite !app_nil_r.
    split; [|split; [reflexivity|exact IH3]].
    destruct p2 as [| | |[]]; cbn [subscriber_inv] in *; try exact IH1.
    + rewrite in_app_iff. destruct IH1 as [IH1|[IH1|(Q1 & Q2 & Q3)]]; [auto|auto|].
      right. right. eapply Hk; try eassumption; discriminate.
    + exfalso. eapply H. reflexivity.
  - rewrite net_map, stdout_map, (background_received _ _ _ _ H) by discriminate. rewrite !app_nil_r.
    cbn [subscriber_inv] in IH1. rewrite IH1. unfold after_first.
    destruct (answered_ok out0); (split; [reflexivity|split; [reflexivity|intros; discriminate]]).
  - rewrite net_map, stdout_map, (background_received _ _ _ _ H) by discriminate. rewrite !app_nil_r.
    split; [|split; [reflexivity|intros; discriminate]]. cbn [after_last subscriber_inv] in *.
    rewrite in_app_iff. destruct IH1 as [IH1|[IH1|(Q1 & Q2 & Q3)]]; [auto|auto|].
    right. right. eapply Hk; try eassumption; discriminate.
  - injection H as <-. rewrite net_app, stdout_app, net_map, stdout_map, net_take, app_nil_r. cbn [subscriber_inv] in IH1.
    pose proof H0 as Hst. apply cstep_inv in H0. inversion H0; subst.
    + destruct e as [tp pl qq rr|rn]; cbn; rewrite ?app_nil_r.
      * split; [rewrite farewells_app, IH1; reflexivity|]. split; [reflexivity|intros; discriminate].
      * split; [right; left; rewrite farewells_app, IH1; discriminate|]. split; [reflexivity|intros; discriminate].
    + cbn. rewrite !app_nil_r. split; [|split; [reflexivity|intros; discriminate]].
      right. right. split; [assumption|]. split; [assumption|]. exact (waiting_full _ _ _ Hc H1).
  - cbn. rewrite !app_nil_r. split; [|split; [reflexivity|intros; discriminate]].
    left. apply in_or_app. right. left. reflexivity.
Qed.
