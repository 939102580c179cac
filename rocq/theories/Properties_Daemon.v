(** Properties of the start of the daemon: C100. *)
From Coq Require Import String.
From Verif Require Import Base Codec CodecFacts Tac Packets Maps TreeFacts Str Examples Server SpecServer Credentials Utf8 SpecCodec Passwd SpecPasswd Listener
  StoreFacts Properties_Server Properties_Passwd Properties_Listener Daemon SpecDaemon DaemonFacts.
Local Open Scope list_scope.

Lemma load_document m c t : with_document m c t -> load_settings m c = read_settings t.
Proof.
  intros (path & Hp & He & Hd & _). unfold load_settings.
  assert (E : match cm_config c with Some p => p | None => default_path end = path)
    by (destruct Hp as [->|[-> ->]]; reflexivity).
  rewrite E, He, Hd. reflexivity.
Qed.
Lemma document_tidy m c t : with_document m c t -> tidy (TTable t).
Proof. intros (_ & _ & _ & _ & H). exact H. Qed.
(** What running tells about the configuration. *)
Lemma runs_inv m c t a tr l cfg : with_document m c t -> daemon m c = Runs a tr l cfg ->
  exists d, reads t d /\ conforms t /\ a = listen_address c d /\ l = log_level c d /\ mc_binds m a = true
    /\ daemon_start (mc_loads m) (ss_tls (ds_server d)) = Serves tr
    /\ daemon_config (mc_verify m) (Mk_settings (ss_max_connections (ds_server d)) (auth_of m (ds_auth d))) = Some cfg.
Proof.
  intros Hw. unfold daemon. rewrite (load_document _ _ _ Hw). destruct (read_settings t) as [d|] eqn:Ed; [|discriminate].
  apply read_settings_some in Ed; [|exact (document_tidy _ _ _ Hw)]. destruct Ed as [Hr Hc].
  destruct (mc_binds m (listen_address c d)) eqn:Eb; [|discriminate]. destruct (daemon_tls (ss_tls (ds_server d))); [|discriminate].
  destruct (daemon_config _ _) as [cfg'|] eqn:Ec; [|discriminate].
  destruct (daemon_start _ _) as [| |tr'] eqn:Es; try discriminate. intros H. injection H as <- <- <- <-.
  exists d. repeat (split; [assumption || reflexivity|]). exact Ec.
Qed.

(** ** The daemon does what the document says *)
(** It listens on the address of the option -l, and without that option on host and port of the
    document, or on 127.0.0.1 and 1883 where the document says nothing; and logs at the level of
    the document, or "info", unless -v asks for "debug". *)
Theorem C100_address m c t a tr l cfg : with_document m c t -> daemon m c = Runs a tr l cfg ->
  (forall x, cm_listen c = Some x -> a = x)
  /\ (cm_listen c = None -> exists host port ds, a = host ++ 58 :: ds /\ writes_number port ds /\ port < 65536
       /\ string_or t [str "server"; str "host"] (str "127.0.0.1") host /\ number_or t [str "server"; str "port"] 1883 port)
  /\ (cm_verbose c = true -> l = str "debug")
  /\ (cm_verbose c = false -> string_or t [str "logging"; str "level"] (str "info") l)
  /\ mc_binds m a = true.
Proof.
  intros Hw H. destruct (runs_inv _ _ _ _ _ _ _ Hw H) as (d & Hr & _ & -> & -> & Hb & _).
  destruct Hr as (A1 & A2 & A2l & _ & _ & _ & _ & _ & A8 & _). unfold listen_address, log_level.
  split; [intros x ->; reflexivity|]. split; [|split; [intros ->; reflexivity|split; [intros ->; exact A8|exact Hb]]].
  intros ->. exists (ss_host (ds_server d)), (ss_port (ds_server d)), (decimal (ss_port (ds_server d))).
  split; [reflexivity|]. split; [apply decimal_writes; eapply N.le_lt_trans; [exact A2l|reflexivity]|]. split; [lia|]. auto.
Qed.
Print Assumptions C100_address.
(** With TLS enabled in the document no connection is served in the clear, and certificate, key
    and client CA are those of the document; otherwise connections are served in the clear. *)
Theorem C100_tls m c t a tr l cfg : with_document m c t -> daemon m c = Runs a tr l cfg ->
  (says t [str "server"; str "tls"; str "enabled"] (TBoolean true) ->
     exists cert key ca, tr = OverTls cert key ca /\ says t [str "server"; str "tls"; str "cert_path"] (TString cert)
       /\ says t [str "server"; str "tls"; str "key_path"] (TString key)
       /\ (forall x, ca = Some x <-> says t [str "server"; str "tls"; str "ca_path"] (TString x)))
  /\ (~ says t [str "server"; str "tls"; str "enabled"] (TBoolean true) -> tr = PlainTcp).
Proof.
  intros Hw H. destruct (runs_inv _ _ _ _ _ _ _ Hw H) as (d & Hr & _ & _ & _ & _ & Hs & _).
  destruct Hr as (_ & _ & _ & _ & A4 & A5 & A6 & A7 & _). pose proof (document_tidy _ _ _ Hw) as Ht.
  unfold daemon_start, daemon_tls in Hs. destruct (ts_enabled (ss_tls (ds_server d))) eqn:Ee.
  - split; [|intros Hn; destruct A4 as [A4|[_ A4]]; [exfalso; exact (Hn A4)|discriminate]].
    intros _. destruct (ts_cert (ss_tls (ds_server d))) as [cert|]; [|discriminate].
    destruct (ts_key (ss_tls (ds_server d))) as [key|]; [|discriminate].
    destruct (mc_loads m _); [|discriminate]. injection Hs as <-. exists cert, key, (ts_ca (ss_tls (ds_server d))).
    split; [reflexivity|]. split; [apply A5; reflexivity|]. split; [apply A6; reflexivity|exact A7].
  - split; [|intros _; injection Hs as <-; reflexivity].
    intros Hy. exfalso. destruct A4 as [A4|[A4 _]]; [|exact (A4 _ Hy)]. pose proof (says_fun _ _ _ _ Ht Hy A4). discriminate.
Qed.
Print Assumptions C100_tls.
(** With authentication enabled in the document no CONNECT without name and password is accepted;
    without a password file none at all; and with one exactly the users of that file. Without
    authentication enabled every CONNECT is accepted. *)
Theorem C100_auth m c t a tr l cfg : with_document m c t -> daemon m c = Runs a tr l cfg ->
  (says t [str "auth"; str "enabled"] (TBoolean true) ->
     (forall k, anonymous k -> ~ accepts cfg k)
     /\ (silent t [str "auth"; str "password_file"] -> forall k, ~ accepts cfg k)
     /\ (forall path, says t [str "auth"; str "password_file"] (TString path) ->
           exists text, mc_password_file m path = Some text
           /\ forall ls k, Forall scalar text -> text_lines text ls ->
              (accepts cfg k <-> exists u h p, cl_user_name (c_payload k) = Some (encode u) /\ cl_password (c_payload k) = Some p
                 /\ Forall scalar u /\ file_maps ls u h
                 /\ ((exists x, h = 36 :: x /\ mc_verify m (encode h) p = true) \/ (not_first (eq 36) h /\ p = encode h)))))
  /\ (~ says t [str "auth"; str "enabled"] (TBoolean true) -> forall k, accepts cfg k).
Proof.
  intros Hw H. destruct (runs_inv _ _ _ _ _ _ _ Hw H) as (d & Hr & _ & _ & _ & _ & _ & Hc).
  destruct Hr as (_ & _ & _ & _ & _ & _ & _ & _ & _ & A9 & _ & A11). pose proof (document_tidy _ _ _ Hw) as Ht.
  set (st := Mk_settings (ss_max_connections (ds_server d)) (auth_of m (ds_auth d))) in *.
  destruct (af_enabled (ds_auth d)) eqn:Ee.
  - split; [|intros Hn; destruct A9 as [A9|[_ A9]]; [exfalso; exact (Hn A9)|discriminate]].
    intros _. split; [|split].
    + intros k Hk [Ha|(n & p & v & Ha & Hb & _)]; [|destruct Hk; congruence].
      unfold daemon_config in Hc. cbn [st st_auth auth_of ac_enabled ac_password_file] in Hc. rewrite Ee in Hc.
      destruct (option_map _ _) as [f|] eqn:Ef; [destruct (load_password_file f); [|discriminate]|]; injection Hc as <-; discriminate.
    + intros Hn k. apply (C61_no_file_refuses_all (mc_verify m) st cfg k); [exact Ee| |exact Hc].
      cbn. destruct (af_password_file (ds_auth d)) as [x|]; [|reflexivity]. exfalso. apply (Hn (TString x)), A11. reflexivity.
    + intros path Hp. apply A11 in Hp. destruct (mc_password_file m path) as [text|] eqn:Ep.
      * exists text. split; [reflexivity|]. intros ls k Hsc Hls.
        apply (C75_accepts_file_users (mc_verify m) st text ls cfg k); [|exact Hsc|exact Hls|exact Hc].
        cbn. unfold auth_of. rewrite Ee, Hp. cbn. rewrite Ep. reflexivity.
      * exfalso. unfold daemon_config in Hc. cbn [st st_auth auth_of ac_enabled ac_password_file] in Hc. rewrite Ee, Hp in Hc.
        cbn in Hc. rewrite Ep in Hc. discriminate.
  - split; [|intros _ k; exact (C61_disabled_accepts_all (mc_verify m) st cfg k Ee Hc)].
    intros Hy. exfalso. destruct A9 as [A9|[A9 _]]; [|exact (A9 _ Hy)]. pose proof (says_fun _ _ _ _ Ht Hy A9). discriminate.
Qed.
Print Assumptions C100_auth.

(** ** When it does not start *)
(** A setting or section of a wrong type, or a number out of range, stops the daemon with exit
    status 1. *)
Theorem C100_malformed_stops m c t : with_document m c t -> ~ conforms t -> daemon m c = Exits 1.
Proof.
  intros Hw Hn. unfold daemon. rewrite (load_document _ _ _ Hw). destruct (read_settings t) as [d|] eqn:Ed; [|reflexivity].
  apply read_settings_some in Ed; [|exact (document_tidy _ _ _ Hw)]. exfalso. apply Hn, Ed.
Qed.
Print Assumptions C100_malformed_stops.
(** TLS without certificate or without key, and a password file that does not load, do so too. *)
Theorem C100_incomplete_stops m c t : with_document m c t ->
  (says t [str "server"; str "tls"; str "enabled"] (TBoolean true)
     /\ (silent t [str "server"; str "tls"; str "cert_path"] \/ silent t [str "server"; str "tls"; str "key_path"]))
  \/ (exists path, says t [str "auth"; str "enabled"] (TBoolean true) /\ says t [str "auth"; str "password_file"] (TString path)
     /\ forall mp, ~ loads (mc_password_file m path) mp) ->
  daemon m c = Exits 1.
Proof.
  intros Hw H. pose proof (document_tidy _ _ _ Hw) as Ht. unfold daemon. rewrite (load_document _ _ _ Hw).
  destruct (read_settings t) as [d|] eqn:Ed; [|reflexivity].
  apply read_settings_some in Ed; [|exact Ht]. destruct Ed as [Hr _].
  destruct Hr as (_ & _ & _ & _ & A4 & A5 & A6 & A7 & _ & A9 & _ & A11).
  destruct (mc_binds m (listen_address c d)); [|reflexivity]. destruct H as [[He Hs]|(path & He & Hp & Hl)].
  - assert (E : ts_enabled (ss_tls (ds_server d)) = true).
    { destruct A4 as [A4|[A4 _]]; [|exfalso; exact (A4 _ He)]. pose proof (says_fun _ _ _ _ Ht He A4). congruence. }
    unfold daemon_tls. rewrite E. destruct (ts_cert (ss_tls (ds_server d))) as [x|]; [|reflexivity].
    destruct (ts_key (ss_tls (ds_server d))) as [y|]; [|reflexivity]. exfalso. destruct Hs as [Hs|Hs].
    + apply (Hs (TString x)), A5. reflexivity.
    + apply (Hs (TString y)), A6. reflexivity.
  - assert (E : af_enabled (ds_auth d) = true).
    { destruct A9 as [A9|[A9 _]]; [|exfalso; exact (A9 _ He)]. pose proof (says_fun _ _ _ _ Ht He A9). congruence. }
    apply A11 in Hp. destruct (daemon_tls (ss_tls (ds_server d))); [|reflexivity].
    unfold daemon_config. cbn [st_auth auth_of ac_enabled ac_password_file]. rewrite E, Hp. cbn [option_map].
    destruct (load_password_file (mc_password_file m path)) as [mp|] eqn:El; [|reflexivity]. exfalso. exact (Hl mp El).
Qed.
Print Assumptions C100_incomplete_stops.
(** A missing, unreadable or ill-formed configuration file stops it. *)
Theorem C100_unreadable_stops m c path : cm_config c = Some path ->
  (mc_exists m path = true /\ mc_document m path = None)
  \/ (mc_exists m path = false /\ path <> str "/etc/mercurio/config.toml") -> daemon m c = Exits 1.
Proof.
  intros Hc H. unfold daemon, load_settings. rewrite Hc. destruct H as [[-> ->]|[-> Hp]]; [reflexivity|].
  rewrite (proj2 (CodecFacts.bytes_eqb_neq path default_path) Hp). reflexivity.
Qed.
Print Assumptions C100_unreadable_stops.
(** Nothing else does: with a well-typed document, an address that can be bound, and TLS and
    password files that load if they are asked for, the daemon runs. *)
Theorem C100_starts m c t : with_document m c t -> conforms t -> (forall a, mc_binds m a = true) ->
  (says t [str "server"; str "tls"; str "enabled"] (TBoolean true) ->
     (exists x, says t [str "server"; str "tls"; str "cert_path"] (TString x))
     /\ (exists x, says t [str "server"; str "tls"; str "key_path"] (TString x)) /\ forall f, mc_loads m f = true) ->
  (says t [str "auth"; str "enabled"] (TBoolean true) -> forall path, says t [str "auth"; str "password_file"] (TString path) ->
     exists mp, loads (mc_password_file m path) mp) ->
  exists a tr l cfg, daemon m c = Runs a tr l cfg.
Proof.
  intros Hw Hc Hb Htls Hauth. pose proof (document_tidy _ _ _ Hw) as Ht. unfold daemon. rewrite (load_document _ _ _ Hw).
  destruct (read_settings_conforms t Ht Hc) as [d Ed]. rewrite Ed. apply read_settings_some in Ed; [|exact Ht].
  destruct Ed as [(_ & _ & _ & _ & A4 & A5 & A6 & A7 & _ & A9 & _ & A11) _]. rewrite Hb.
  assert (Hs : exists o tr, daemon_tls (ss_tls (ds_server d)) = Some o /\ daemon_start (mc_loads m) (ss_tls (ds_server d)) = Serves tr).
  { unfold daemon_start, daemon_tls. destruct (ts_enabled (ss_tls (ds_server d))); [|eexists _, _; split; reflexivity].
    destruct A4 as [A4|[_ A4]]; [|discriminate]. destruct (Htls A4) as ((x & Hx) & (y & Hy) & Hl).
    rewrite (proj2 (A5 x) Hx), (proj2 (A6 y) Hy), Hl. eexists _, _. split; reflexivity. }
  destruct Hs as (o & tr & -> & ->).
  assert (Ha : exists cfg, daemon_config (mc_verify m) (Mk_settings (ss_max_connections (ds_server d)) (auth_of m (ds_auth d))) = Some cfg).
  { unfold daemon_config. cbn [st_auth auth_of ac_enabled ac_password_file]. destruct (af_enabled (ds_auth d)); [|eexists; reflexivity].
    destruct A9 as [A9|[_ A9]]; [|discriminate]. destruct (af_password_file (ds_auth d)) as [path|]; [|eexists; reflexivity].
    destruct (Hauth A9 path (proj1 (A11 path) eq_refl)) as [mp Hm]. cbn [option_map]. unfold loads in Hm. rewrite Hm. eexists. reflexivity. }
  destruct Ha as [cfg ->]. eexists _, _, _, _. reflexivity.
Qed.
Print Assumptions C100_starts.
(** Names that are no setting change nothing: two documents of the same settings start the same
    daemon. *)
Theorem C100_only_settings m c c' t t' : with_document m c t -> with_document m c' t' -> conforms t -> conforms t' ->
  cm_listen c = cm_listen c' -> cm_verbose c = cm_verbose c' ->
  (forall p P v, setting p P -> (says t p v <-> says t' p v)) -> daemon m c = daemon m c'.
Proof.
  intros Hw Hw' Hc Hc' El Ev H. pose proof (document_tidy _ _ _ Hw) as Ht. pose proof (document_tidy _ _ _ Hw') as Ht'.
  unfold daemon. rewrite (load_document _ _ _ Hw), (load_document _ _ _ Hw').
  destruct (read_settings_conforms t Ht Hc) as [d Ed]. destruct (read_settings_conforms t' Ht' Hc') as [d' Ed']. rewrite Ed, Ed'.
  apply read_settings_some in Ed; [|exact Ht]. apply read_settings_some in Ed'; [|exact Ht'].
  rewrite (reads_fun t' d d' Ht' (reads_same t t' d H (proj1 Ed)) (proj1 Ed')). unfold listen_address, log_level. rewrite El, Ev. reflexivity.
Qed.
Print Assumptions C100_only_settings.

(** ** Examples *)
(** mercuriod/contrib/config.toml *)
Definition shipped : table :=
  [(str "server", TTable [(str "host", TString (str "127.0.0.1")); (str "port", TInteger 1883); (str "max_connections", TInteger 10000)]);
   (str "logging", TTable [(str "level", TString (str "info"))]);
   (str "auth", TTable [(str "enabled", TBoolean false); (str "allow_anonymous", TBoolean true)])].
(** One with TLS and a password file. *)
Definition guarded : table :=
  [(str "server", TTable [(str "host", TString (str "0.0.0.0")); (str "port", TInteger 8883);
     (str "tls", TTable [(str "enabled", TBoolean true); (str "cert_path", TString (str "c.pem")); (str "key_path", TString (str "k.pem"))])]);
   (str "auth", TTable [(str "enabled", TBoolean true); (str "password_file", TString (str "users"))])].
(** The same with [enable] for [enabled]. *)
Definition misspelt : table :=
  [(str "auth", TTable [(str "enable", TBoolean true); (str "password_file", TString (str "users"))])].
Definition ex_machine (t : table) (tls : bool) : machine :=
  Mk_machine (fun p => bytes_eqb p (str "c.toml")) (fun _ => Some t) (fun _ => Some (str "bob:pw")) (fun _ => true) (fun _ => tls) (fun _ _ => false).
Definition ex_line : command_line := Mk_command_line (Some (str "c.toml")) None false.
Fixpoint distinct (l : list bytes) : bool :=
  match l with [] => true | x :: r => negb (existsb (bytes_eqb x) r) && distinct r end.
Lemma nodup_bytes (l : list bytes) : distinct l = true -> NoDup l.
Proof.
  induction l as [|x l IH]; [constructor|]. cbn. intros H. apply Bool.andb_true_iff in H. destruct H as [H1 H2].
  constructor; [|exact (IH H2)]. intros Hi. apply Bool.negb_true_iff in H1.
  assert (E : existsb (bytes_eqb x) l = true) by (apply existsb_exists; exists x; split; [exact Hi|apply bytes_eqb_eq; reflexivity]).
  congruence.
Qed.
Lemma tidy_by_table t : NoDup (map fst t) -> Forall (fun e => tidy (snd e)) t -> tidy (TTable t).
Proof. intros H H'. apply tidy_table; [exact H|]. intros k v Hi. rewrite Forall_forall in H'. exact (H' _ Hi). Qed.
Ltac tidy_tac := repeat first
  [ apply tidy_by_table | apply Forall_cons | apply Forall_nil
  | (apply tidy_value; intros ? ?; discriminate)
  | (apply nodup_bytes; vm_compute; reflexivity)
  | progress cbn [snd] ].
Lemma ex_with t tls : tidy (TTable t) -> with_document (ex_machine t tls) ex_line t.
Proof. intros H. exists (str "c.toml"). split; [left; reflexivity|]. split; [reflexivity|]. split; [reflexivity|exact H]. Qed.
Example C100_shipped_ex : with_document (ex_machine shipped true) ex_line shipped /\ conforms shipped
  /\ exists cfg, daemon (ex_machine shipped true) ex_line = Runs (str "127.0.0.1:1883") PlainTcp (str "info") cfg.
Proof.
  assert (Ht : tidy (TTable shipped)) by tidy_tac. split; [apply ex_with, Ht|]. split; [|eexists; reflexivity].
  apply (read_settings_some shipped (Mk_daemon_settings server_default (str "info") auth_default)); [exact Ht|reflexivity].
Qed.
Example C100_guarded_ex : with_document (ex_machine guarded true) ex_line guarded
  /\ says guarded [str "server"; str "tls"; str "enabled"] (TBoolean true)
  /\ says guarded [str "auth"; str "enabled"] (TBoolean true)
  /\ exists cfg, daemon (ex_machine guarded true) ex_line = Runs (str "0.0.0.0:8883") (OverTls (str "c.pem") (str "k.pem") None) (str "info") cfg
       /\ accepts cfg (ex_login "x" "bob" "pw") /\ ~ accepts cfg (ex_login "x" "bob" "wrong").
Proof.
  assert (Ht : tidy (TTable guarded)) by tidy_tac. split; [apply ex_with, Ht|].
  split; [do 2 (eapply says_inside; [cbn; auto|]); apply says_here; cbn; auto|].
  split; [eapply says_inside; [cbn; auto|]; apply says_here; cbn; auto|].
  eexists. split; [reflexivity|]. rewrite <- !authenticated_iff. split; [vm_compute; reflexivity|vm_compute; discriminate].
Qed.
Example C100_stops_ex : let t := [(str "server", TTable [(str "port", TInteger 70000)])] in
  with_document (ex_machine t true) ex_line t /\ ~ conforms t /\ daemon (ex_machine t true) ex_line = Exits 1.
Proof.
  split; [apply ex_with; tidy_tac|]. split; [|reflexivity]. intros [H _].
  destruct (H _ _ (TInteger 70000) set_port) as (z & E & Hz); [eapply says_inside; [cbn; auto|]; apply says_here; cbn; auto|].
  injection E as <-. lia.
Qed.

(** ** What is false *)
(** An administrator who writes a name that is no setting is not told: here [enable] for
    [enabled], and everyone is let in. *)
Theorem C100_misspelt_refuted : exists m c t a tr l cfg k, with_document m c t
  /\ says t [str "auth"; str "enable"] (TBoolean true) /\ daemon m c = Runs a tr l cfg /\ anonymous k /\ accepts cfg k.
Proof.
  exists (ex_machine misspelt true), ex_line, misspelt. do 4 eexists. exists (ex_connect "x" true).
  split; [apply ex_with; tidy_tac|]. split; [eapply says_inside; [cbn; auto|]; apply says_here; cbn; auto|].
  split; [reflexivity|]. split; [left; reflexivity|]. left. reflexivity.
Qed.
Print Assumptions C100_misspelt_refuted.
(** A configuration file that is asked for and missing does not always stop the daemon: the one
    of the service file (mercuriod/contrib/mercuriod.service) is replaced by defaults that let
    everyone in. *)
Theorem C100_missing_default_open m : mc_exists m (str "/etc/mercurio/config.toml") = false -> (forall a, mc_binds m a = true) ->
  exists cfg, daemon m (Mk_command_line (Some (str "/etc/mercurio/config.toml")) None false)
    = Runs (str "127.0.0.1:1883") PlainTcp (str "info") cfg /\ forall k, accepts cfg k.
Proof.
  intros He Hb. unfold daemon, load_settings. cbn [cm_config]. rewrite He.
  change (bytes_eqb (str "/etc/mercurio/config.toml") default_path) with true. cbv iota. rewrite Hb.
  eexists. split; [reflexivity|]. intros k. left. reflexivity.
Qed.
Print Assumptions C100_missing_default_open.
Theorem C100_missing_file_refuted : exists m c path a tr l cfg, cm_config c = Some path /\ mc_exists m path = false
  /\ daemon m c = Runs a tr l cfg /\ forall k, accepts cfg k.
Proof.
  destruct (C100_missing_default_open (ex_machine shipped true)) as (cfg & H & Hk); [reflexivity|reflexivity|].
  do 6 eexists. exists cfg. split; [|split; [|split; [exact H|exact Hk]]]; reflexivity.
Qed.
Print Assumptions C100_missing_file_refuted.
(** A daemon that does not start does not always say so by its exit status, on which the service
    file relies (Restart=on-failure): TLS files that do not load end it with status 0. *)
Theorem C100_failure_status_refuted : exists m c t, with_document m c t /\ conforms t /\ daemon m c = Exits 0.
Proof.
  exists (ex_machine guarded false), ex_line, guarded. assert (Ht : tidy (TTable guarded)) by tidy_tac.
  split; [apply ex_with, Ht|]. split; [|reflexivity].
  destruct (read_settings guarded) as [d|] eqn:E; [|discriminate]. exact (proj2 (read_settings_some guarded d Ht E)).
Qed.
Print Assumptions C100_failure_status_refuted.
