(** Properties C53-C55: authentication.
    Every theorem is followed by a concrete case meeting its hypotheses. *)
From Coq Require Import String.
From Verif Require Import Base Utf8 Codec SpecCodec Tac CodecFacts Str Maps Topic Property PacketProps Packets
  TopicTree TreeFacts Storage StorageFacts Broker Auth Credentials Session Server SpecServer SessionFacts ServerFacts Examples.

(** ** C53 *)
Lemma split_nul_spec bs u p : split_nul bs = Some (u, p) <-> bs = u ++ 0 :: p /\ ~ In 0 u.
Proof.
  revert u. induction bs as [|b bs IH]; intros u; simpl.
  - split; [discriminate|]. intros [H _]. destruct u; discriminate.
  - destruct (b =? 0) eqn:E.
    + apply N.eqb_eq in E. subst b. split.
      * intros H. inv H. auto.
      * intros [H Hn]. destruct u as [|x u]; [inv H; auto|]. inv H. exfalso. apply Hn. left. reflexivity.
    + apply N.eqb_neq in E. split.
      * destruct (split_nul bs) as [[u1 p1]|] eqn:Es; [|discriminate]. intros H. inv H.
        destruct (proj1 (IH u1) eq_refl) as [-> Hn]. split; auto. intros [H|H]; auto.
      * intros [H Hn]. destruct u as [|x u]; [inv H; congruence|]. inv H.
        rewrite (proj2 (IH u)); auto. split; auto. intros Hx. apply Hn. right. exact Hx.
Qed.
(** A registered pair: the entry the map holds for the user. *)
Definition registered (creds : credentials) (u p : bytes) : Prop := aget bytes_eqb u creds = Some p.
Theorem C53_plain creds data :
  plain_start creds data = AuthSuccess <->
  exists u p, data = Some (0 :: u ++ 0 :: p) /\ ~ In 0 u /\ utf8 u /\ utf8 p /\ registered creds u p.
Proof.
  unfold plain_start, registered. split.
  - destruct data as [data|]; [|discriminate]. destruct data as [|b rest]; [discriminate|]. simpl.
    destruct (b =? 0) eqn:E; simpl; [|discriminate]. apply N.eqb_eq in E. subst b.
    destruct (split_nul rest) as [[u p]|] eqn:Es; [|discriminate]. apply split_nul_spec in Es. destruct Es as [-> Hn].
    destruct (utf8_valid u) eqn:Eu; simpl; [|discriminate]. destruct (utf8_valid p) eqn:Ep; simpl; [|discriminate].
    destruct (aget bytes_eqb u creds) as [q|] eqn:Eg; [|discriminate].
    destruct (bytes_eqb q p) eqn:Eq; [|discriminate]. apply beqb_spec in Eq. subst q.
    intros _. exists u, p. repeat split; auto; apply utf8_valid_iff; auto.
  - intros (u & p & -> & Hn & Hu & Hp & Hg). simpl.
    rewrite (proj2 (split_nul_spec _ u p)) by auto.
    apply utf8_valid_iff in Hu, Hp. rewrite Hu, Hp. simpl. rewrite Hg, bytes_eqb_refl. reflexivity.
Qed.
Print Assumptions C53_plain.
Definition ex_creds : credentials := [(str "admin", str "secret"); (str "bob", str "")].
Example C53_ex : plain_start ex_creds (Some (0 :: str "admin" ++ 0 :: str "secret")) = AuthSuccess
  /\ plain_start ex_creds (Some (0 :: str "bob" ++ [0])) = AuthSuccess
  /\ plain_start ex_creds (Some (str "x" ++ 0 :: str "admin" ++ 0 :: str "secret")) <> AuthSuccess.
Proof. repeat split; vm_compute; congruence. Qed.
(** PLAIN needs one step: a second step never succeeds, and none is asked for. *)
Theorem C53_plain_single_step creds data :
  (forall r, plain_continue data = r -> r = AuthFailed ProtocolError) /\
  (forall d ch, plain_start creds d <> AuthContinue ch).
Proof.
  split; [intros r <-; reflexivity|]. intros d ch. unfold plain_start. destruct d as [d|]; [|discriminate].
  destruct (parse_plain_data d) as [[u p]|]; [|discriminate]. destruct (aget bytes_eqb u creds) as [q|]; [|discriminate].
  destruct (bytes_eqb q p); discriminate.
Qed.
Print Assumptions C53_plain_single_step.
(** Every refusal has its reason; a wrong password and an unknown user have the same, so that nobody can find out who is registered. *)
Theorem C53_plain_refusals creds data :
  plain_start creds data =
    AuthFailed (match data with None => BadAuthenticationMethod | Some _ => MalformedPacket end) <->
    ~ exists u p, data = Some (0 :: u ++ 0 :: p) /\ ~ In 0 u /\ utf8 u /\ utf8 p.
Proof.
  unfold plain_start. destruct data as [data|].
  2:{ split; [intros _ (u & p & E & _); discriminate|reflexivity]. }
  assert (H : parse_plain_data data = None <-> ~ exists u p, Some data = Some (0 :: u ++ 0 :: p) /\ ~ In 0 u /\ utf8 u /\ utf8 p).
  { destruct data as [|b rest].
    - split; [intros _ (u & p & E & _); discriminate|reflexivity].
    - simpl. destruct (b =? 0) eqn:E; simpl.
      2:{ apply N.eqb_neq in E. split; [intros _ (u & p & Ed & _); congruence|reflexivity]. }
      apply N.eqb_eq in E. subst b. destruct (split_nul rest) as [[u p]|] eqn:Es.
      + apply split_nul_spec in Es. destruct Es as [-> Hn].
        destruct (utf8_valid u) eqn:Eu, (utf8_valid p) eqn:Ep; simpl.
        1:{ split; [discriminate|]. intros H. exfalso. apply H. exists u, p. repeat split; auto; apply utf8_valid_iff; auto. }
        all: split; [intros _ (u1 & p1 & E1 & Hn1 & Hu1 & Hp1)|reflexivity]; injection E1 as E1;
          assert (E2 : split_nul (u ++ 0 :: p) = Some (u1, p1)) by (apply split_nul_spec; auto);
          rewrite (proj2 (split_nul_spec _ u p)) in E2 by auto; injection E2 as <- <-;
          apply utf8_valid_iff in Hu1, Hp1; congruence.
      + split; [intros _ (u & p & E1 & Hn & _)|reflexivity]. injection E1 as ->.
        rewrite (proj2 (split_nul_spec _ u p)) in Es by auto. discriminate. }
  rewrite <- H. destruct (parse_plain_data data) as [[u p]|]; [|split; reflexivity].
  split; [|discriminate]. destruct (aget bytes_eqb u creds) as [q|]; [destruct (bytes_eqb q p)|]; discriminate.
Qed.
Print Assumptions C53_plain_refusals.
Theorem C53_plain_wrong_credentials creds u p : ~ In 0 u -> utf8 u -> utf8 p -> ~ registered creds u p ->
  plain_start creds (Some (0 :: u ++ 0 :: p)) = AuthFailed BadUserNameOrPassword.
Proof.
  intros Hn Hu Hp Hr. unfold plain_start. simpl. rewrite (proj2 (split_nul_spec _ u p)) by auto.
  apply utf8_valid_iff in Hu, Hp. rewrite Hu, Hp. simpl. unfold registered in Hr.
  destruct (aget bytes_eqb u creds) as [q|]; [|reflexivity].
  destruct (bytes_eqb q p) eqn:E; [|reflexivity]. apply beqb_spec in E. subst q. congruence.
Qed.
Print Assumptions C53_plain_wrong_credentials.
(** The method is found by the name "PLAIN", and registering it changes no other. *)
Theorem C53_plain_by_name creds am data name :
  (start_auth (register plain_name (plain_auth creds) am) (str "PLAIN") (Some data) = AuthSuccess
     <-> plain_start creds (Some data) = AuthSuccess)
  /\ supports_method (register plain_name (plain_auth creds) am) (str "PLAIN") = true
  /\ (name <> str "PLAIN" -> forall d, start_auth (register plain_name (plain_auth creds) am) name d = start_auth am name d).
Proof.
  change plain_name with (str "PLAIN"). unfold start_auth, supports_method, register.
  rewrite aget_aput by apply beqb_spec. replace (bytes_eqb (str "PLAIN") (str "PLAIN")) with true by reflexivity.
  split; [reflexivity|]. split; [reflexivity|]. intros Hn d. rewrite aget_aput by apply beqb_spec.
  destruct (bytes_eqb name (str "PLAIN")) eqn:E; [apply beqb_spec in E; contradiction|reflexivity].
Qed.
Print Assumptions C53_plain_by_name.
(** With PLAIN alone every other name is refused, as that of no method. *)
Theorem C53_unknown_method creds name d e : name <> str "PLAIN" ->
  supports_method (register plain_name (plain_auth creds) []) name = false /\
  start_auth (register plain_name (plain_auth creds) []) name d = AuthFailed BadAuthenticationMethod /\
  continue_auth (register plain_name (plain_auth creds) []) name e = AuthFailed BadAuthenticationMethod.
Proof.
  intros Hn. change plain_name with (str "PLAIN"). unfold supports_method, start_auth, continue_auth, register. rewrite !aget_aput by apply beqb_spec.
  destruct (bytes_eqb name (str "PLAIN")) eqn:E; [apply beqb_spec in E; contradiction|]. auto.
Qed.
Print Assumptions C53_unknown_method.
Example C53_refusals_ex : plain_start ex_creds None = AuthFailed BadAuthenticationMethod
  /\ plain_start ex_creds (Some (str "admin")) = AuthFailed MalformedPacket
  /\ plain_start ex_creds (Some (0 :: str "admin" ++ 0 :: str "x")) = AuthFailed BadUserNameOrPassword
  /\ plain_start ex_creds (Some (0 :: str "eve" ++ 0 :: str "x")) = AuthFailed BadUserNameOrPassword.
Proof. repeat split. Qed.

(** ** C54 *)
(** Method [name] is configured and behaves as [m]. *)
Definition configured (cfg : config) (name : bytes) (m : auth_method) : Prop :=
  exists am, sv_manager cfg = Some am /\ aget bytes_eqb name am = Some m.
(** The exchange in progress of a session. *)
Definition exchanging (s : session) (name : bytes) : Prop := se_auth s = Some name.

Lemma auth_answer am a s x s' : handle_auth am a s = (Ok (Some x), s') ->
  exists r, x = Auth r /\ (au_reason r = Success \/ au_reason r = ContinueAuthentication).
Proof.
  unfold handle_auth. destruct am as [am|]; [|discriminate]. intros H.
  repeat match type of H with
  | (match ?t with _ => _ end) = _ => destruct t; try discriminate
  | (if ?t then _ else _) = _ => destruct t; try discriminate
  | (let _ := _ in _) = _ => cbv zeta in H
  end; inv H; (eexists; split; [reflexivity|]; simpl; auto).
Qed.
(** Success is reported only if the configured method accepted the data of this very packet;
    afterwards no exchange is in progress. *)
Theorem C54_success_only_if_accepted cfg w c i s p w' o r :
  serves w c i s -> step cfg w (EPacket c (Auth p)) = (w', o) ->
  In (Sent c (Auth r)) o -> au_reason r = Success ->
  exists name m, configured cfg name m /\
  ((au_reason p = ReAuthenticate /\ aup_auth_method (au_properties p) = Some name
      /\ am_start m (aup_auth_data (au_properties p)) = AuthSuccess)
   \/ (au_reason p = ContinueAuthentication /\ exchanging s name
      /\ exists d, aup_auth_data (au_properties p) = Some d /\ am_continue m d = AuthSuccess))
  /\ o = [Sent c (Auth r)] /\ exists s', serves w' c i s' /\ (forall n, ~ exchanging s' n) /\ w_broker w' = w_broker w.
Proof.
  intros Hs H Hin Hr. rewrite (step_packet _ _ _ i s) in H by (auto; discriminate). destruct Hs as [Hc Hi].
  unfold packet_step in H. cbn [process_incoming] in H.
  destruct (handle_auth (sv_manager cfg) p s) as [res s1] eqn:E.
  destruct res as [[x|]|e|]; inv H; simpl in Hin; try (intuition discriminate).
  destruct Hin as [Hin|[]]. inv Hin.
  assert (Hex : forall sx, serves (put_session i sx (set_broker (w_broker w) w)) c i sx)
    by (intros sx; split; [exact Hc|eapply put_same; simpl; eauto]).
  unfold handle_auth in E. destruct (sv_manager cfg) as [am|] eqn:Ea; [|discriminate].
  destruct (au_reason p) eqn:Ep; try discriminate.
  - (* continue *)
    destruct (se_auth s) as [name|] eqn:En; [|discriminate].
    destruct (aup_auth_data (au_properties p)) as [d|] eqn:Ed; [|discriminate].
    unfold continue_auth in E. destruct (aget bytes_eqb name am) as [m|] eqn:Em; [|discriminate].
    destruct (am_continue m d) eqn:Ec; [|injection E as <- <-; discriminate|discriminate].
    injection E as <- <-. exists name, m. split; [exists am; auto|]. split; [right; eauto|].
    split; [reflexivity|]. eexists. split; [apply Hex|]. split; [unfold exchanging; discriminate|reflexivity].
  - destruct (aup_auth_method (au_properties p)) as [name|] eqn:En; [|discriminate].
    destruct (negb (supports_method am name)); [discriminate|].
    unfold start_auth in E. destruct (aget bytes_eqb name am) as [m|] eqn:Em; [|discriminate].
    destruct (am_start m _) eqn:Ec; [|injection E as <- <-; discriminate|discriminate].
    injection E as <- <-. exists name, m. split; [exists am; auto|]. split; [left; eauto|].
    split; [reflexivity|]. eexists. split; [apply Hex|]. split; [unfold exchanging; discriminate|reflexivity].
Qed.
Print Assumptions C54_success_only_if_accepted.
(** Every accepted start is reported as success. *)
Theorem C54_accepted_is_reported cfg w c i s p name m :
  serves w c i s -> configured cfg name m ->
  (au_reason p = ReAuthenticate /\ aup_auth_method (au_properties p) = Some name
      /\ am_start m (aup_auth_data (au_properties p)) = AuthSuccess)
   \/ (au_reason p = ContinueAuthentication /\ exchanging s name
      /\ exists d, aup_auth_data (au_properties p) = Some d /\ am_continue m d = AuthSuccess) ->
  exists r, au_reason r = Success /\ snd (step cfg w (EPacket c (Auth p))) = [Sent c (Auth r)].
Proof.
  intros Hs (am & Ha & Hm) H. rewrite (step_packet _ _ _ i s) by (auto; discriminate).
  unfold packet_step. cbn [process_incoming]. unfold handle_auth. rewrite Ha.
  destruct H as [(H1 & H2 & H3)|(H1 & H2 & d & H3 & H4)]; rewrite H1.
  - rewrite H2. unfold supports_method, start_auth. rewrite Hm, H3. eexists. split; [|reflexivity]. reflexivity.
  - red in H2. rewrite H2, H3. unfold continue_auth. rewrite Hm, H4. eexists. split; [|reflexivity]. reflexivity.
Qed.
Print Assumptions C54_accepted_is_reported.
(** CONTINUE without an exchange in progress ends the connection. *)
Theorem C54_continue_needs_exchange cfg w c i s p : serves w c i s ->
  au_reason p = ContinueAuthentication -> (forall n, ~ exchanging s n) ->
  step cfg w (EPacket c (Auth p)) = step cfg w (EEnd c) /\ snd (step cfg w (EPacket c (Auth p))) = [Closed c].
Proof.
  intros Hs Hr Hn. rewrite (step_packet _ _ _ i s) by (auto; discriminate). rewrite (step_end _ _ _ i s) by auto.
  assert (He : handle_auth (sv_manager cfg) p s = (Err (EReason (match sv_manager cfg with None => BadAuthenticationMethod | _ => ProtocolError end)), s)).
  { unfold handle_auth. destruct (sv_manager cfg); auto. rewrite Hr. destruct (se_auth s) as [n|] eqn:E; [|reflexivity].
    exfalso. apply (Hn n). exact E. }
  unfold packet_step. cbn [process_incoming]. rewrite He. rewrite (put_id w c i s Hs). auto.
Qed.
Print Assumptions C54_continue_needs_exchange.
(** An exchange is in progress only because a session's client started one: a re-authentication
    naming the configured method was received earlier. *)
Lemma change_auth am w e s s' n : change am w e s s' -> exchanging s' n ->
  exchanging s n \/ exists c p a, e = EPacket c (Auth p) /\ au_reason p = ReAuthenticate
    /\ aup_auth_method (au_properties p) = Some n /\ am = Some a /\ aget bytes_eqb n a <> None.
Proof.
  unfold exchanging. intros H Hn.
  assert (Hp : forall c k r s1 b1, process_incoming am k s (w_broker w) = (r, s1, b1) -> se_auth s1 = Some n ->
     se_auth s = Some n \/ exists c0 p a, EPacket c k = EPacket c0 (Auth p) /\ au_reason p = ReAuthenticate
       /\ aup_auth_method (au_properties p) = Some n /\ am = Some a /\ aget bytes_eqb n a <> None).
  { clear. intros c k r s1 b1 H Hn. destruct k; simpl in H; try (injection H as <- <- <-; left; exact Hn).
    - unfold handle_publish in H. destruct (validate_publish_topic _); [inv H; auto|].
      destruct (pb_qos _); [|destruct (pb_packet_id _)|destruct (pb_packet_id _)|]; injection H as <- <- <-; left; exact Hn.
    - unfold handle_subscribe in H. destruct (subscribe_loop _ _ _) as [[? ?] ?]. injection H as <- <- <-. left; exact Hn.
    - unfold handle_unsubscribe in H. destruct (unsubscribe_loop _ _) as [? ?]. injection H as <- <- <-. left; exact Hn.
    - destruct (handle_auth am a s) as [r1 s2] eqn:E. injection H as <- <- <-. unfold handle_auth in E.
      destruct am as [am|]; [|inv E; auto]. destruct (au_reason a) eqn:Ea; try (inv E; auto; fail).
      + destruct (se_auth s) as [m|] eqn:Es; [|inv E; rewrite Es in Hn; discriminate].
        destruct (aup_auth_data (au_properties a)) as [d0|]; [|inv E; rewrite Es in Hn; auto].
        destruct (continue_auth am m d0); inv E; simpl in Hn; try discriminate. rewrite Es in Hn; auto.
      + destruct (aup_auth_method (au_properties a)) as [m|] eqn:Em; [|inv E; auto].
        destruct (supports_method am m) eqn:Esu; simpl in E; [|inv E; auto].
        right. exists c, a, am. unfold supports_method in Esu.
        assert (m = n) by (destruct (start_auth am m _); inv E; simpl in Hn; congruence). subst m.
        repeat split; auto. destruct (aget bytes_eqb n am); discriminate. }
  inversion H as [e0 s0|c k u a resume s0|c k s0 s1 b1 r Hd Hs Hpi|c k s0 s1 b1 er Hd Hs Hpi|c d s0|c g s0 s1 r Hs Hpo|c s0]; subst; auto.
  - left. unfold begin in Hn. destruct (cl_client_id _); exact Hn.
  - eauto.
  - simpl in Hn. eauto.
  - left. unfold process_outgoing in Hpo. destruct (aget bytes_eqb g (se_subs s)); [|discriminate].
    destruct (stream_next _ _) as [[m st]|]; [|discriminate].
    destruct (mg_packet_id m); [destruct (mg_qos m)|]; inv Hpo; exact Hn.
Qed.
Lemma restore_auth fs : forall s b s' b', restore_subscriptions fs s b = (s', b') -> se_auth s' = se_auth s.
Proof.
  induction fs as [|f fs IH]; simpl; intros s b s' b' H; [inv H; auto|].
  apply IH in H. exact H.
Qed.
Lemma created_auth cfg w e s : created cfg w e s -> se_auth s = None.
Proof.
  intros H. destruct H as [c k u subs wl infl s b b' Hwf Hn Ha He Hb1 Hb2 Hr|c k u subs wl infl Hwf Hn Ha He].
  - apply restore_auth in Hr. destruct wl; simpl; rewrite Hr; unfold begin; destruct (cl_client_id _); reflexivity.
  - unfold begin; destruct (cl_client_id _); reflexivity.
Qed.
Theorem C54_exchange_was_started cfg es i s n :
  nth_error (w_heap (fst (run cfg es world_new))) i = Some s -> exchanging s n ->
  (exists m, configured cfg n m) /\
  exists c p, In (EPacket c (Auth p)) es /\ au_reason p = ReAuthenticate /\ aup_auth_method (au_properties p) = Some n.
Proof.
  revert i s. induction es as [|e es IH] using rev_ind; intros i s Hi Hn.
  - destruct i; discriminate.
  - rewrite run_app in Hi. cbn [fst] in Hi. rewrite run_cons in Hi. cbn [fst run] in Hi.
    set (w := fst (run cfg es world_new)) in *. destruct (step cfg w e) as [w' o] eqn:E. cbn [fst] in Hi.
    assert (Hwf : wf w) by (apply (reachable_wf cfg); exists es; reflexivity).
    assert (Hev : e = ERestart \/ e <> ERestart) by (destruct e; auto; right; discriminate).
    destruct Hev as [->|Hev]; [simpl in E; inv E; destruct i; discriminate|].
    destruct (step_heap _ _ _ _ _ Hwf Hev E) as (Hold & Hnew & _ & _).
    destruct (nth_error (w_heap w) i) as [s0|] eqn:Es.
    + destruct (Hold _ _ Es) as (s1 & H1 & H2). rewrite Hi in H1. injection H1 as <-.
      destruct (change_auth _ _ _ _ _ _ H2 Hn) as [Hx|(c & p & a & -> & H3 & H4 & H5 & H6)].
      * destruct (IH _ _ Es Hx) as (Hm & c & p & H3 & H4). split; auto. exists c, p. rewrite in_app_iff. auto.
      * split.
        -- destruct (aget bytes_eqb n a) as [m|] eqn:Em; [|congruence]. exists m, a. auto.
        -- exists c, p. rewrite in_app_iff. simpl. auto.
    + apply nth_error_None in Es. specialize (Hnew _ _ Hi Es). apply created_auth in Hnew. red in Hn. congruence.
Qed.
Print Assumptions C54_exchange_was_started.
(** A two-step method: start with no data asks for a response, which must be "ok". *)
Definition ex_method : auth_method :=
  Mk_auth_method (fun d => match d with None => AuthContinue (str "who?") | Some _ => AuthFailed BadUserNameOrPassword end)
                 (fun d => if bytes_eqb d (str "ok") then AuthSuccess else AuthFailed BadUserNameOrPassword).
Definition ex_auth_cfg : config := Mk_config false None (Some (register (str "TWO") ex_method [])).
Definition ex_reauth (c : nat) (d : option bytes) : event :=
  EPacket c (Auth (Mk_auth_packet ReAuthenticate (Mk_auth_props (Some (str "TWO")) d None None))).
Definition ex_continue (c : nat) (d : string) : event :=
  EPacket c (Auth (Mk_auth_packet ContinueAuthentication (Mk_auth_props (Some (str "TWO")) (Some (str d)) None None))).
Example C54_ex :
  let w := fst (run ex_auth_cfg [ex_first 1 (ex_connect "a" true); ex_reauth 1 None] world_new) in
  (exists s, serves w 1 0 s /\ exchanging s (str "TWO")) /\
  snd (step ex_auth_cfg w (ex_continue 1 "ok")) = [Sent 1 (Auth (Mk_auth_packet Success auth_props_default))] /\
  snd (step ex_auth_cfg w (ex_continue 1 "no")) = [Closed 1] /\ configured ex_auth_cfg (str "TWO") ex_method.
Proof.
  split; [eexists; split; [split; vm_compute; reflexivity|vm_compute; reflexivity]|].
  split; [vm_compute; reflexivity|]. split; [vm_compute; reflexivity|]. eexists. split; vm_compute; reflexivity.
Qed.
Example C54_ex2 : exists s, serves (fst (run ex_auth_cfg [ex_first 1 (ex_connect "a" true)] world_new)) 1 0 s /\ forall n, ~ exchanging s n.
Proof. eexists. split; [split; vm_compute; reflexivity|]. unfold exchanging. discriminate. Qed.
(** A failing second step leaves no exchange in progress. *)
Theorem C54_failed_exchange_ends_partial cfg w c i s p n m d r w' o :
  serves w c i s -> configured cfg n m -> exchanging s n ->
  au_reason p = ContinueAuthentication -> aup_auth_data (au_properties p) = Some d -> am_continue m d = AuthFailed r ->
  step cfg w (EPacket c (Auth p)) = (w', o) ->
  o = [Closed c] /\ not_served w' c /\ exists s', nth_error (w_heap w') i = Some s' /\ forall x, ~ exchanging s' x.
Proof.
  intros Hs (am & Ha & Hm) Hn Hr Hd Hf H. rewrite (step_packet _ _ _ i s) in H by (auto; discriminate).
  unfold packet_step in H. cbn [process_incoming] in H. unfold handle_auth in H. rewrite Ha, Hr in H. red in Hn. rewrite Hn, Hd in H.
  unfold continue_auth in H. rewrite Hm, Hf in H. inv H. split; [reflexivity|]. split.
  - unfold not_served. rewrite end_conns. apply aget_del_same, nateqb_spec.
  - eexists. split; [apply end_heap_same; eapply put_same; simpl; apply Hs|]. unfold exchanging. discriminate.
Qed.
Print Assumptions C54_failed_exchange_ends_partial.
(** The full claim is false: a failing re-authentication leaves the exchange in progress, and
    the next connection of the client can continue the exchange it never started. *)
Theorem C54_exchange_per_connection_refuted : exists cfg w c w' o r,
  reachable cfg w /\ not_served w c /\
  run cfg [ex_first c (ex_connect "a" false); ex_continue c "ok"] w = (w', o) /\
  In (Sent c (Auth r)) o /\ au_reason r = Success.
Proof.
  exists ex_auth_cfg, (fst (run ex_auth_cfg [ex_first 1 (ex_connect "a" true); ex_reauth 1 (Some (str "bad"))] world_new)), 2%nat.
  eexists. eexists. eexists. split; [eexists; reflexivity|]. split; [vm_compute; reflexivity|].
  split; [vm_compute; reflexivity|]. split; [right; left; reflexivity|reflexivity].
Qed.
Print Assumptions C54_exchange_per_connection_refuted.

(** ** C55 *)
Theorem C55_simple_validator creds u p : Forall (fun e => utf8 (snd e)) creds ->
  (simple_validate creds u p = true <-> registered creds u p).
Proof.
  intros Hc. unfold simple_validate, registered. split.
  - destruct (utf8_valid p); [|discriminate]. destruct (aget bytes_eqb u creds) as [q|]; [|discriminate].
    intros H. apply beqb_spec in H. congruence.
  - intros H. assert (Hu : utf8 p).
    { rewrite Forall_forall in Hc. apply (Hc (u, p)). eapply aget_in; eauto. apply beqb_spec. }
    apply utf8_valid_iff in Hu. rewrite Hu, H. apply bytes_eqb_refl.
Qed.
Print Assumptions C55_simple_validator.
(** For every hash verification function. *)
Theorem C55_hashed_validator verify creds u p : Forall (fun e => utf8 (snd e)) creds ->
  (hashed_validate verify creds u p = true <->
   exists stored, registered creds u stored /\
     ((exists h, stored = 36 :: h /\ verify stored p = true) \/ ((forall h, stored <> 36 :: h) /\ stored = p))).
Proof.
  intros Hc. unfold hashed_validate, registered.
  assert (Hh : forall x, is_hash x = true <-> exists h, x = 36 :: h).
  { intros x. split; [|intros [h ->]; reflexivity]. unfold is_hash. destruct x as [|b x]; [discriminate|].
    intros H. exists x. f_equal. destruct b as [|q]; [discriminate|]. do 6 (destruct q as [q|q|]; try discriminate). reflexivity. }
  split.
  - destruct (aget bytes_eqb u creds) as [q|] eqn:E; [|discriminate]. intros H. exists q. split; auto.
    destruct (is_hash q) eqn:Eh.
    + left. apply Hh in Eh. destruct Eh as [h Eh]. exists h. auto.
    + right. destruct (utf8_valid p); [|discriminate]. apply beqb_spec in H. split; auto.
      intros h ->. discriminate.
  - intros (q & Hq & H). rewrite Hq. destruct H as [(h & -> & H)|[Hn ->]]; [exact H|].
    destruct (is_hash p) eqn:Eh; [apply Hh in Eh; destruct Eh as [h ->]; exfalso; eapply Hn; reflexivity|].
    assert (Hu : utf8 p).
    { rewrite Forall_forall in Hc. apply (Hc (u, p)). eapply aget_in; eauto. apply beqb_spec. }
    apply utf8_valid_iff in Hu. rewrite Hu. apply bytes_eqb_refl.
Qed.
Print Assumptions C55_hashed_validator.
Example C55_ex : Forall (fun e => utf8 (snd e)) ex_creds /\ simple_validate ex_creds (str "admin") (str "secret") = true
  /\ hashed_validate (fun _ p => bytes_eqb p (str "pw")) [(str "h", str "$argon2"); (str "l", str "plain")] (str "h") (str "pw") = true
  /\ hashed_validate (fun _ p => bytes_eqb p (str "pw")) [(str "h", str "$argon2"); (str "l", str "plain")] (str "h") (str "$argon2") = false
  /\ hashed_validate (fun _ p => bytes_eqb p (str "pw")) [(str "h", str "$argon2"); (str "l", str "plain")] (str "l") (str "plain") = true.
Proof.
  split; [repeat constructor; apply utf8_valid_iff; vm_compute; reflexivity|]. repeat split; vm_compute; reflexivity.
Qed.
