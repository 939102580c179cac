(** Properties of the daemon's password file and configuration: C56, C61, C73 - C76. *)
From Coq Require Import Permutation String.
From Verif Require Import Base Utf8 Codec SpecCodec CodecFacts Tac Property PacketProps Packets Maps TreeFacts Auth Credentials
  Session Server SpecServer SessionFacts ServerFacts HandlerFacts HistoryFacts WorldFacts ConnectFacts StoreFacts Str Examples Properties_Auth Properties_Server
  Passwd SpecPasswd PasswdFacts.
Local Open Scope list_scope.

(** What a user of the file observes: the hash that loading it gives a user. *)
Definition loads (f : file) (m : list (list N * list N)) : Prop := load_password_file f = Some m.
Definition gives (m : list (list N * list N)) (u : list N) : option (list N) := aget bytes_eqb u m.

(** ** C74: the file format *)
(** A text loads if and only if each of its lines is empty, a comment or an entry. *)
Theorem C74_loads_iff t ls : text_lines t ls ->
  ((exists m, loads (Some t) m) <-> forall l, In l ls -> ignored l \/ exists u h, entry_line l u h).
Proof.
  intros H. apply text_lines_lines in H. subst ls. unfold loads, load_password_file. apply load_lines_some.
Qed.
Print Assumptions C74_loads_iff.
(** The result is, for every user, what the last line about that user says. *)
Theorem C74_loaded t ls m u h : text_lines t ls -> loads (Some t) m -> (gives m u = Some h <-> file_maps ls u h).
Proof.
  intros H Hm. apply text_lines_lines in H. subst ls. unfold loads, load_password_file in Hm. unfold gives.
  rewrite (load_lines_maps _ _ _ _ _ Hm). split; [intros [H|[_ H]]; [exact H|discriminate]|auto].
Qed.
Print Assumptions C74_loaded.
Example C74_ex :
  let t := str " # users" ++ 10 :: str " bob:$old " ++ [13; 10] ++ [0x3000; 10] ++ str "bob:a:b" ++ [0xA0; 10] ++ str ":" in
  text_lines t [str " # users"; str " bob:$old " ++ [13]; [0x3000]; str "bob:a:b" ++ [0xA0]; str ":"]
  /\ loads (Some t) [(str "bob", str "a:b"); ([], [])]
  /\ ~ (exists m, loads (Some (t ++ 10 :: str "no separator")) m).
Proof.
  split; [apply text_lines_lines; vm_compute; reflexivity|]. split; [vm_compute; reflexivity|].
  intros [m H]. vm_compute in H. discriminate.
Qed.

(** ** C56: adding, updating and deleting users *)
(** For every iteration order of the map, every file that loads or does not exist and every
    name the format can hold. [m] is what the file held. *)
Theorem C56_add_partial order f m u pw h f' : (forall es, Permutation es (order es)) ->
  loads f m \/ (f = None /\ m = []) -> plain_name u -> hash_text h ->
  add_or_update_user order f u pw pw h = Some f' ->
  exists m', loads f' m' /\ gives m' u = Some h /\ forall v, v <> u -> gives m' v = gives m v.
Proof.
  intros Ho Hf Hu Hh H. unfold add_or_update_user in H. destruct pw as [|c pw]; [discriminate|].
  rewrite (aeqb_refl _ beqb_spec) in H. cbn [negb] in H. injection H as <-.
  assert (Em : load_password_file_entries f = m).
  { unfold load_password_file_entries. destruct Hf as [->|[-> ->]]; reflexivity. }
  destruct (entries_ok f) as [Hok Hnd]. rewrite Em in Hok, Hnd |- *.
  set (es := aput bytes_eqb u h m). assert (Hok' : Forall entry_ok es) by (apply aput_ok; [split|]; auto).
  assert (Hnd' : NoDup (akeys es)) by (apply nodup_aput; [apply beqb_spec|exact Hnd]).
  exists (order es). split.
  - apply load_write.
    + apply Forall_forall. intros e He. rewrite Forall_forall in Hok'. apply Hok'. eapply Permutation_in; [apply Permutation_sym, Ho|exact He].
    + eapply Permutation_NoDup; [apply Permutation_map, Ho|exact Hnd'].
  - unfold gives. split; [|intros v Hv]; rewrite (aget_perm es) by (auto; apply Ho); unfold es;
      [apply aget_put_same, beqb_spec|apply aget_put_other; [apply beqb_spec|exact Hv]].
Qed.
Print Assumptions C56_add_partial.
(** The command succeeds whenever the two passwords typed are equal and not empty. *)
Theorem C56_add_succeeds order f u pw confirm h :
  (exists f', add_or_update_user order f u pw confirm h = Some f') <-> pw <> [] /\ pw = confirm.
Proof.
  unfold add_or_update_user. destruct pw as [|c pw]; [split; [intros [? H]; discriminate|intros [H _]; congruence]|].
  destruct (bytes_eqb (c :: pw) confirm) eqn:E; cbn [negb].
  - apply beqb_spec in E. split; [intros _; split; [discriminate|exact E]|eauto].
  - split; [intros [? H]; discriminate|]. intros [_ <-]. rewrite (aeqb_refl _ beqb_spec) in E. discriminate.
Qed.
Print Assumptions C56_add_succeeds.
(** [plain_name] is exact: a file never gives a hash to any other name, whatever was added. *)
Theorem C56_other_names_never_load f m u h : loads f m -> gives m u = Some h -> plain_name u /\ hash_text h.
Proof.
  intros H Hu. destruct (loaded_ok _ _ H) as [Hok _]. rewrite Forall_forall in Hok.
  apply (aget_in _ beqb_spec) in Hu. exact (Hok _ Hu).
Qed.
Print Assumptions C56_other_names_never_load.
Theorem C56_delete order f m u f' : (forall es, Permutation es (order es)) -> loads f m ->
  delete_user order f u = Some f' ->
  exists m', loads f' m' /\ gives m' u = None /\ forall v, v <> u -> gives m' v = gives m v.
Proof.
  intros Ho Hf H. unfold delete_user in H.
  assert (Em : load_password_file_entries f = m) by (unfold load_password_file_entries; rewrite Hf; reflexivity).
  destruct (entries_ok f) as [Hok Hnd]. rewrite Em in *. destruct (aget bytes_eqb u m); [|discriminate]. injection H as <-.
  set (es := adel bytes_eqb u m). assert (Hok' : Forall entry_ok es) by (apply adel_ok, Hok).
  assert (Hnd' : NoDup (akeys es)) by (apply nodup_adel, Hnd; apply beqb_spec).
  exists (order es). split.
  - apply load_write.
    + apply Forall_forall. intros e He. rewrite Forall_forall in Hok'. apply Hok'. eapply Permutation_in; [apply Permutation_sym, Ho|exact He].
    + eapply Permutation_NoDup; [apply Permutation_map, Ho|exact Hnd'].
  - unfold gives. split; [|intros v Hv]; rewrite (aget_perm es) by (auto; apply Ho); unfold es;
      [apply aget_del_same, beqb_spec|apply aget_del_other; [apply beqb_spec|exact Hv]].
Qed.
Print Assumptions C56_delete.
Theorem C56_delete_succeeds order f m u : loads f m ->
  ((exists f', delete_user order f u = Some f') <-> gives m u <> None).
Proof.
  intros H. unfold delete_user, load_password_file_entries, gives. rewrite H.
  destruct (aget bytes_eqb u m); split; try (intros [? E]; discriminate); try congruence; eauto.
Qed.
Print Assumptions C56_delete_succeeds.
Definition ex_file : file := Some (str "alice:$a" ++ 10 :: str "bob:$b").
Definition ex_order (es : list (list N * list N)) : list (list N * list N) := rev es.
Lemma ex_order_ok es : Permutation es (ex_order es). Proof. apply Permutation_rev. Qed.
Example C56_ex : loads ex_file [(str "alice", str "$a"); (str "bob", str "$b")]
  /\ plain_name (str "carol#1 x") /\ hash_text (str "$argon2id$v=19$c2FsdA$aGFzaA")
  /\ (exists f', add_or_update_user ex_order ex_file (str "carol#1 x") (str "pw") (str "pw") (str "$argon2id$v=19$c2FsdA$aGFzaA") = Some f')
  /\ (exists f', delete_user ex_order ex_file (str "bob") = Some f').
Proof.
  split; [vm_compute; reflexivity|]. split.
  { split; [vm_compute; intuition discriminate|]. split; [vm_compute; intuition discriminate|].
    split; apply not_first_cons; [rewrite <- is_space_not; reflexivity|vm_compute; discriminate]. }
  split. { split; [vm_compute; intuition discriminate|]. apply (not_last_snoc _ 65 (str "$argon2id$v=19$c2FsdA$aGFza")). rewrite <- is_space_not. reflexivity. }
  split; eexists; vm_compute; reflexivity.
Qed.
(** The full claim is false. The name "bob:x" overwrites bob (if the map
    happens to be iterated in that order). *)
Theorem C56_separator_refuted : exists order f m u pw h f' m', (forall es, Permutation es (order es)) /\ loads f m /\ hash_text h /\
  add_or_update_user order f u pw pw h = Some f' /\ loads f' m' /\ gives m' u = None /\
  exists v, v <> u /\ gives m v <> gives m' v.
Proof.
  exists (fun es => es), ex_file. do 1 eexists. exists (str "bob:x"), (str "pw"), (str "$h"). do 2 eexists.
  split; [intros es; apply Permutation_refl|].   split; [vm_compute; reflexivity|]. split.
  { split; [vm_compute; intuition discriminate|]. apply (not_last_snoc _ 104 [36]). rewrite <- is_space_not. reflexivity. }
  split; [vm_compute; reflexivity|]. split; [vm_compute; reflexivity|]. split; [vm_compute; reflexivity|].
  exists (str "bob"). split; [discriminate|]. vm_compute. discriminate.
Qed.
Print Assumptions C56_separator_refuted.
(** The name "#x" is reported as added and is not there. *)
Theorem C56_comment_refuted : exists f u pw h f' m',
  add_or_update_user ex_order f u pw pw h = Some f' /\ loads f' m' /\ gives m' u = None.
Proof. exists ex_file, (str "#x"), (str "pw"), (str "$h"). do 2 eexists. repeat split; vm_compute; reflexivity. Qed.
Print Assumptions C56_comment_refuted.
(** A name with a line feed makes the file unusable. *)
Theorem C56_line_feed_refuted : exists f m u pw h f', loads f m /\
  add_or_update_user ex_order f u pw pw h = Some f' /\ forall m', ~ loads f' m'.
Proof.
  exists ex_file. eexists. exists (120 :: 10 :: str "y"), (str "pw"), (str "$h"). eexists.
  split; [vm_compute; reflexivity|]. split; [vm_compute; reflexivity|]. intros m'. vm_compute. discriminate.
Qed.
Print Assumptions C56_line_feed_refuted.
(** A file with one bad line loses every other user when a user is added: every such file does. *)
Theorem C56_bad_line_refuted order f u pw h : (forall es, Permutation es (order es)) ->
  (forall m, ~ loads f m) -> plain_name u -> hash_text h -> pw <> [] ->
  exists f' m', add_or_update_user order f u pw pw h = Some f' /\ loads f' m' /\ forall v, v <> u -> gives m' v = None.
Proof.
  intros Ho Hf Hu Hh Hp. destruct (proj2 (C56_add_succeeds order f u pw pw h) (conj Hp eq_refl)) as [f' Hf'].
  assert (E : add_or_update_user order None u pw pw h = Some f').
  { rewrite <- Hf'. unfold add_or_update_user, load_password_file_entries. destruct (load_password_file f) as [m|] eqn:E; [|reflexivity].
    exfalso. exact (Hf m E). }
  destruct (C56_add_partial order None [] u pw h f' Ho (or_intror (conj eq_refl eq_refl)) Hu Hh E) as (m' & Hm & _ & Hv).
  exists f', m'. auto.
Qed.
Print Assumptions C56_bad_line_refuted.
Example C56_bad_line_ex : forall m, ~ loads (Some (str "alice:$a" ++ 10 :: str "bob")) m.
Proof. intros m. vm_compute. discriminate. Qed.

(** ** C73: an interrupted update *)
(** What is in the file when the process or the disk stops at any point of the write: a part of
    the new text; [None] if the cut is inside a character. *)
Definition interrupted (t : list N) (f : file) : Prop := f = None \/ exists p q, t = p ++ q /\ f = Some p.
Theorem C73_interrupted_partial order f m u pw h t f' m' v h' : (forall es, Permutation es (order es)) ->
  loads f m \/ (f = None /\ m = []) -> plain_name u -> hash_text h ->
  add_or_update_user order f u pw pw h = Some (Some t) -> interrupted t f' -> loads f' m' -> gives m' v = Some h' ->
  exists g r, g = h' ++ r /\ ((v = u /\ g = h) \/ (v <> u /\ gives m v = Some g)).
Proof.
  intros Ho Hf Hu Hh H Hi Hm' Hv. destruct Hi as [->|(p & q & Ht & ->)]; [discriminate|].
  pose proof (C56_add_partial order f m u pw h (Some t) Ho Hf Hu Hh H) as (m2 & H2 & Hu2 & Ho2).
  unfold add_or_update_user in H. destruct pw as [|c pw]; [discriminate|].
  rewrite (aeqb_refl _ beqb_spec) in H. cbn [negb] in H. unfold write_password_file in H.
  set (es := aput bytes_eqb u h (load_password_file_entries f)) in *. injection H as H.
  destruct (entries_ok f) as [Hok Hnd]. assert (Hok' : Forall entry_ok es) by (apply aput_ok; [split|]; auto).
  assert (Hnd' : NoDup (akeys es)) by (apply nodup_aput; [apply beqb_spec|exact Hnd]).
  assert (Hok2 : Forall entry_ok (order es)).
  { apply Forall_forall. intros e He. rewrite Forall_forall in Hok'. apply Hok'. eapply Permutation_in; [apply Permutation_sym, Ho|exact He]. }
  assert (Hnd2 : NoDup (akeys (order es))) by (eapply Permutation_NoDup; [apply Permutation_map, Ho|exact Hnd']).
  rewrite Ht in H. destruct (prefix_loads _ _ _ _ _ _ Hok2 Hnd2 H Hm' Hv) as (g & r & Hg & Hr). exists g, r. split; [exact Hr|].
  unfold loads in H2. rewrite <- Ht in H. rewrite <- H, load_write in H2 by assumption. injection H2 as <-. unfold gives in *.
  destruct (bytes_eqb v u) eqn:E.
  - apply beqb_spec in E. subst v. left. split; [reflexivity|congruence].
  - assert (v <> u) by (intros ->; rewrite (aeqb_refl _ beqb_spec) in E; discriminate). right. split; auto. rewrite <- Ho2 by auto. exact Hg.
Qed.
Print Assumptions C73_interrupted_partial.
(** The full claim is false: neither the old nor the new entries need be there. *)
Theorem C73_atomic_refuted : exists f m u pw h t f' m', loads f m /\ plain_name u /\ hash_text h /\
  add_or_update_user ex_order f u pw pw h = Some (Some t) /\ interrupted t f' /\ loads f' m' /\
  gives m' u = None /\ exists v, v <> u /\ gives m v <> None /\ gives m' v = None.
Proof.
  exists ex_file. eexists. exists (str "carol"), (str "pw"), (str "$h"). eexists. exists (Some []), [].
  split; [vm_compute; reflexivity|]. split.
  { split; [vm_compute; intuition discriminate|]. split; [vm_compute; intuition discriminate|].
    split; apply not_first_cons; [rewrite <- is_space_not; reflexivity|vm_compute; discriminate]. }
  split. { split; [vm_compute; intuition discriminate|]. apply (not_last_snoc _ 104 [36]). rewrite <- is_space_not. reflexivity. }
  split; [vm_compute; reflexivity|]. split; [right; exists []; eexists; split; reflexivity|]. split; [vm_compute; reflexivity|].
  split; [reflexivity|]. exists (str "bob"). repeat split; vm_compute; discriminate.
Qed.
Print Assumptions C73_atomic_refuted.

(** ** C75: the file and the broker *)
(** With authentication enabled and a password file the broker accepts exactly the users of the
    file: with the password that their hash accepts, or for an entry that is no hash (does not
    begin with '$') with that text as password. For every hash verification function. *)
Theorem C75_accepts_file_users verify d t ls cfg k : st_auth d = Mk_auth_section true (ac_allow_anonymous (st_auth d)) (Some (Some t)) ->
  Forall scalar t -> text_lines t ls -> daemon_config verify d = Some cfg ->
  (accepts cfg k <-> exists u h p, cl_user_name (c_payload k) = Some (encode u) /\ cl_password (c_payload k) = Some p
     /\ Forall scalar u /\ file_maps ls u h
     /\ ((exists x, h = 36 :: x /\ verify (encode h) p = true) \/ (not_first (eq 36) h /\ p = encode h))).
Proof.
  intros Hd Ht Hls H. unfold daemon_config in H. rewrite Hd in H. cbn [ac_enabled ac_password_file] in H.
  destruct (load_password_file (Some t)) as [m|] eqn:Em; [|discriminate]. injection H as <-.
  pose proof (loaded_scalar _ _ Ht Em) as Hm.
  assert (Hcr : Forall (fun e => utf8 (snd e)) (stored_credentials m)).
  { apply Forall_forall. intros e He. apply in_map_iff in He. destruct He as (x & <- & Hx). rewrite Forall_forall in Hm.
    apply encode_utf8, (Hm _ Hx). }
  assert (H36 : forall h, Forall scalar h -> (forall x, h = 36 :: x -> encode h = 36 :: encode x) /\ ((exists y, encode h = 36 :: y) -> exists x, h = 36 :: x)).
  { intros h Hh. split; [intros x ->; reflexivity|]. intros [y Hy]. destruct h as [|c h]; [discriminate|]. exists h. f_equal.
    assert (E : utf8_encode1 c ++ encode h = utf8_encode1 36 ++ y) by exact Hy. inversion Hh as [|? ? Hsc _]; subst.
    eapply encode1_prefix; [exact Hsc|left; lia|exact E]. }
  unfold accepts. cbn [sv_require_auth sv_validator]. split.
  - intros [Hx|(n & p & v & Hn & Hp & Hv & Hb)]; [discriminate|]. injection Hv as <-. apply C55_hashed_validator in Hb; [|exact Hcr].
    destruct Hb as (st & Hst & Hb). apply aget_stored_inv in Hst; [|exact Hm]. destruct Hst as (u & h & -> & -> & Hg & Hu & Hh).
    exists u, h, p. repeat split; auto; [apply (C74_loaded t ls m u h Hls Em); exact Hg|].
    destruct Hb as [(y & Hy & Hb)|[Hno Hb]].
    + left. destruct (proj2 (H36 h Hh) (ex_intro _ y Hy)) as [x Hx]. exists x. auto.
    + right. split; [|auto]. intros c r E Ec. subst c. apply (Hno (encode r)). apply (proj1 (H36 h Hh)), E.
  - intros (u & h & p & Hn & Hp & Hu & Hf & Hb). right. exists (encode u), p. eexists. split; [exact Hn|]. split; [exact Hp|].
    split; [reflexivity|]. apply C55_hashed_validator; [exact Hcr|]. exists (encode h).
    apply (C74_loaded t ls m u h Hls Em) in Hf. unfold gives in Hf.
    assert (Hh : Forall scalar h). { apply (aget_in _ beqb_spec) in Hf. rewrite Forall_forall in Hm. apply (Hm _ Hf). }
    split; [unfold registered; rewrite aget_stored by assumption; rewrite Hf; reflexivity|].
    destruct Hb as [(x & -> & Hb)|[Hno ->]]; [left; exists (encode x); split; [reflexivity|exact Hb]|].
    right. split; [|reflexivity]. intros y Hy. destruct (proj2 (H36 h Hh) (ex_intro _ y Hy)) as [x Hx]. exact (Hno 36 x Hx eq_refl).
Qed.
Print Assumptions C75_accepts_file_users.
(** A file that does not load stops the daemon before it listens to anyone. *)
Theorem C75_bad_file_stops verify d f : st_auth d = Mk_auth_section true (ac_allow_anonymous (st_auth d)) (Some f) ->
  (daemon_config verify d = None <-> forall m, ~ loads f m).
Proof.
  intros Hd. unfold daemon_config. rewrite Hd. cbn [ac_enabled ac_password_file]. unfold loads.
  destruct (load_password_file f) as [m|]; split; try discriminate; try congruence. intros H. exfalso. exact (H m eq_refl).
Qed.
Print Assumptions C75_bad_file_stops.
(** After [passwd] for user [u] the broker, restarted, lets [u] in with exactly the passwords that
    the new hash accepts, and treats every CONNECT with another name as before. *)
Theorem C75_passwd_then_connect verify order d d' t m u pw h t' cfg cfg' : (forall es, Permutation es (order es)) ->
  st_auth d = Mk_auth_section true (ac_allow_anonymous (st_auth d)) (Some (Some t)) ->
  st_auth d' = Mk_auth_section true (ac_allow_anonymous (st_auth d')) (Some (Some t')) ->
  loads (Some t) m -> Forall scalar t -> plain_name u -> Forall scalar u -> hash_text h -> Forall scalar h -> (exists x, h = 36 :: x) ->
  add_or_update_user order (Some t) u pw pw h = Some (Some t') ->
  daemon_config verify d = Some cfg -> daemon_config verify d' = Some cfg' ->
  (forall k, cl_user_name (c_payload k) = Some (encode u) ->
     (accepts cfg' k <-> exists p, cl_password (c_payload k) = Some p /\ verify (encode h) p = true))
  /\ (forall k, cl_user_name (c_payload k) <> Some (encode u) -> (accepts cfg' k <-> accepts cfg k)).
Proof.
  intros Ho Hd Hd' Hm Ht Hu Hus Hh Hhs Hh36 Hadd Hc Hc'.
  destruct (C56_add_partial order (Some t) m u pw h (Some t') Ho (or_introl Hm) Hu Hh Hadd) as (m' & Hm' & Hgu & Hgo).
  pose proof (loaded_scalar _ _ Ht Hm) as Hms.
  assert (Hms' : Forall scalar_entry m').
  { apply Forall_forall. intros [v g] Hv. destruct (loaded_ok _ _ Hm') as [_ Hn]. apply (in_aget _ beqb_spec) in Hv; [|exact Hn].
    destruct (bytes_eqb v u) eqn:E.
    - apply beqb_spec in E. subst v. unfold gives in Hgu. assert (g = h) by congruence. subst g. split; assumption.
    - assert (Hv' : gives m v = Some g) by (rewrite <- Hgo; [exact Hv|intros ->; rewrite (aeqb_refl _ beqb_spec) in E; discriminate]).
      apply (aget_in _ beqb_spec) in Hv'. rewrite Forall_forall in Hms. apply Hms, Hv'. }
  unfold daemon_config in Hc, Hc'. rewrite Hd in Hc. rewrite Hd' in Hc'. cbn [ac_enabled ac_password_file] in Hc, Hc'.
  unfold loads in Hm, Hm'. rewrite Hm in Hc. rewrite Hm' in Hc'. injection Hc as <-. injection Hc' as <-.
  assert (Hval : forall c k, accepts (Mk_config true (Some (hashed_validate verify c)) None) k <->
     exists n p, cl_user_name (c_payload k) = Some n /\ cl_password (c_payload k) = Some p /\ hashed_validate verify c n p = true).
  { intros c k. unfold accepts. cbn [sv_require_auth sv_validator]. split.
    - intros [Hx|(n & p & v & Hn & Hp & Hv & Hb)]; [discriminate|]. injection Hv as <-. eauto.
    - intros (n & p & Hn & Hp & Hb). right. exists n, p. eauto. }
  split; intros k Hk; rewrite !Hval.
  - destruct Hh36 as [x Hx]. assert (Hst : forall p, hashed_validate verify (stored_credentials m') (encode u) p = verify (encode h) p).
    { intros p. unfold hashed_validate. rewrite aget_stored by assumption. unfold gives in Hgu. rewrite Hgu, Hx. reflexivity. }
    split.
    + intros (n & p & Hn & Hp & Hb). assert (n = encode u) by congruence. subst n. rewrite Hst in Hb. eauto.
    + intros (p & Hp & Hb). exists (encode u), p. rewrite Hst. auto.
  - assert (Hsame : forall n p, Some n <> Some (encode u) ->
        hashed_validate verify (stored_credentials m') n p = hashed_validate verify (stored_credentials m) n p).
    { intros n p Hn. unfold hashed_validate.
      assert (E : aget bytes_eqb n (stored_credentials m') = aget bytes_eqb n (stored_credentials m)); [|rewrite E; reflexivity].
      destruct (aget bytes_eqb n (stored_credentials m')) as [y|] eqn:E.
      - apply aget_stored_inv in E; [|exact Hms']. destruct E as (v & g & -> & -> & Hg & Hv & _). rewrite aget_stored by assumption.
        unfold gives in Hgo. rewrite Hgo in Hg by congruence. rewrite Hg. reflexivity.
      - destruct (aget bytes_eqb n (stored_credentials m)) as [y|] eqn:E2; [|reflexivity].
        apply aget_stored_inv in E2; [|exact Hms]. destruct E2 as (v & g & -> & -> & Hg & Hv & _).
        rewrite aget_stored in E by assumption. unfold gives in Hgo. rewrite Hgo in E by congruence. rewrite Hg in E. discriminate. }
    split; intros (n & p & Hn & Hp & Hb); exists n, p; (split; [exact Hn|split; [exact Hp|]]);
      [rewrite <- Hsame|rewrite Hsame]; congruence.
Qed.
Print Assumptions C75_passwd_then_connect.
Definition ex_settings (f : file) : settings := Mk_settings 10000 (Mk_auth_section true true (Some f)).
Definition ex_verify (stored p : bytes) : bool := bytes_eqb stored (36 :: p).
Example C75_ex : exists t' cfg cfg',
  add_or_update_user ex_order ex_file (str "bob") (str "new") (str "new") (str "$new") = Some (Some t')
  /\ daemon_config ex_verify (ex_settings ex_file) = Some cfg /\ daemon_config ex_verify (ex_settings (Some t')) = Some cfg'
  /\ accepts cfg (ex_login "x" "bob" "b") /\ ~ accepts cfg (ex_login "x" "bob" "new")
  /\ accepts cfg' (ex_login "x" "bob" "new") /\ ~ accepts cfg' (ex_login "x" "bob" "b")
  /\ accepts cfg' (ex_login "x" "alice" "a").
Proof.
  do 3 eexists. split; [vm_compute; reflexivity|]. split; [reflexivity|]. split; [reflexivity|].
  rewrite <- !authenticated_iff. repeat split; vm_compute; congruence.
Qed.
(** Together with C73: an interrupted update can leave an account that anyone enters with the
    empty password, which neither the old nor the new file accepts. *)
Theorem C73_empty_password_refuted : exists f u pw h t f' cfg0 cfg1 cfg k,
  add_or_update_user ex_order f u pw pw h = Some (Some t) /\ interrupted t f'
  /\ daemon_config ex_verify (ex_settings f) = Some cfg0 /\ daemon_config ex_verify (ex_settings (Some t)) = Some cfg1
  /\ daemon_config ex_verify (ex_settings f') = Some cfg
  /\ ~ accepts cfg0 k /\ ~ accepts cfg1 k /\ accepts cfg k.
Proof.
  exists ex_file, (str "alice"), (str "pw"), (str "$pw"). eexists.
  exists (Some (header ++ str "bob:$b" ++ 10 :: str "alice:")). do 3 eexists. exists (ex_login "x" "alice" "").
  split; [reflexivity|]. split. { right. eexists. exists (str "$pw" ++ [10]). split; [|reflexivity]. vm_compute. reflexivity. }
  split; [reflexivity|]. split; [reflexivity|]. split; [reflexivity|]. rewrite <- !authenticated_iff. repeat split; vm_compute; congruence.
Qed.
Print Assumptions C73_empty_password_refuted.

(** ** C61: allow_anonymous *)
Definition anonymous (k : connect_packet) : Prop := cl_user_name (c_payload k) = None \/ cl_password (c_payload k) = None.
(** With authentication enabled an anonymous client is refused: as asked when allow_anonymous is unset. *)
Theorem C61_anonymous_refused_partial verify d cfg w c k u a : ac_enabled (st_auth d) = true -> daemon_config verify d = Some cfg ->
  not_served w c -> anonymous k ->
  step cfg w (EFirst c (Some (Connect k)) u a)
  = (w, [Sent c (ConnAck (Mk_connack_packet (c_protocol_version k) false BadUserNameOrPassword None)); Closed c]).
Proof.
  intros He Hd Hn Hk. apply C38_refused; [exact Hn|]. unfold daemon_config in Hd. rewrite He in Hd.
  assert (Hr : sv_require_auth cfg = true).
  { destruct (ac_password_file (st_auth d)) as [f|]; [destruct (load_password_file f); [|discriminate]|]; injection Hd as <-; reflexivity. }
  intros [Ha|(n & p & v & Ha & Hb & _)]; [congruence|]. destruct Hk; congruence.
Qed.
Print Assumptions C61_anonymous_refused_partial.
(** Without authentication enabled everyone is accepted, whatever allow_anonymous says. *)
Theorem C61_disabled_accepts_all verify d cfg k : ac_enabled (st_auth d) = false -> daemon_config verify d = Some cfg -> accepts cfg k.
Proof. intros He Hd. unfold daemon_config in Hd. rewrite He in Hd. injection Hd as <-. left. reflexivity. Qed.
Print Assumptions C61_disabled_accepts_all.
(** With authentication enabled and no password file nobody is accepted. *)
Theorem C61_no_file_refuses_all verify d cfg k : ac_enabled (st_auth d) = true -> ac_password_file (st_auth d) = None ->
  daemon_config verify d = Some cfg -> ~ accepts cfg k.
Proof.
  intros He Hf Hd. unfold daemon_config in Hd. rewrite He, Hf in Hd. injection Hd as <-.
  intros [Ha|(n & p & v & _ & _ & Hv & _)]; discriminate.
Qed.
Print Assumptions C61_no_file_refuses_all.
(** The full claim is false: an anonymous client is refused although allow_anonymous is set. *)
Theorem C61_allow_anonymous_refuted : exists d cfg k, ac_enabled (st_auth d) = true /\ ac_allow_anonymous (st_auth d) = true
  /\ daemon_config ex_verify d = Some cfg /\ anonymous k /\ ~ accepts cfg k.
Proof.
  exists (ex_settings ex_file). eexists. exists (ex_connect "x" true). split; [reflexivity|]. split; [reflexivity|]. split; [reflexivity|].
  split; [left; reflexivity|]. rewrite <- authenticated_iff. vm_compute. discriminate.
Qed.
Print Assumptions C61_allow_anonymous_refuted.

(** ** C76: max_connections *)
(** False: whatever the limit and the credentials, a history serves more connections at once. *)
Theorem C76_max_connections_refuted verify d cfg k : daemon_config verify d = Some cfg -> accepts cfg k ->
  exists es cs, NoDup cs /\ N.of_nat (length cs) > st_max_connections d /\ forall c, In c cs -> exists i s, serves (state cfg es) c i s.
Proof.
  intros _ Ha.
  assert (H : forall n, exists es, forall c, (c < n)%nat -> exists i, aget Nat.eqb c (w_conns (state cfg es)) = Some i).
  { induction n as [|n [es IH]]; [exists []; intros c Hc; lia|].
    destruct (aget Nat.eqb n (w_conns (state cfg es))) as [j|] eqn:En.
    { exists es. intros c Hc. destruct (Nat.eq_dec c n) as [->|Hne]; [eauto|apply IH; lia]. }
    exists (es ++ [EFirst n (Some (Connect k)) (str "u") true]). intros c Hc. unfold state. rewrite run_app. cbn [run].
    destruct (run cfg es world_new) as [w o] eqn:Er. cbn [fst].
    assert (Ew : state cfg es = w) by (unfold state; rewrite Er; reflexivity). rewrite Ew in *.
    destruct (step cfg w (EFirst n (Some (Connect k)) (str "u") true)) as [w' o'] eqn:Es. cbn [fst].
    assert (Hwf : wf w) by (rewrite <- Ew; apply state_wf).
    apply authenticated_iff in Ha. destruct (connect_accept _ _ _ _ _ _ _ Hwf En Ha Es) as (i & subs & wl & infl & s & s1 & Hac).
    destruct Hac as [_ _ _ Hcn _ _ _ _ _]. rewrite Hcn. rewrite (aget_aput _ nateqb_spec).
    destruct (Nat.eqb c n) eqn:E; [eauto|]. apply Nat.eqb_neq in E. apply IH. lia. }
  destruct (H (S (N.to_nat (st_max_connections d)))) as [es Hes]. exists es, (seq 0 (S (N.to_nat (st_max_connections d)))).
  split; [apply seq_NoDup|]. split; [rewrite seq_length; lia|]. intros c Hc. apply in_seq in Hc. destruct (Hes c ltac:(lia)) as [i Hi].
  destruct (state_wf cfg es) as [_ Hwf]. specialize (Hwf c i Hi). apply nth_error_Some in Hwf.
  destruct (nth_error (w_heap (state cfg es)) i) as [s|] eqn:E; [|congruence]. exists i, s. split; [exact Hi|exact E].
Qed.
Print Assumptions C76_max_connections_refuted.
Example C76_ex : exists cfg, daemon_config ex_verify (ex_settings ex_file) = Some cfg /\ accepts cfg (ex_login "x" "bob" "b").
Proof. eexists. split; [reflexivity|]. rewrite <- authenticated_iff. vm_compute. reflexivity. Qed.
