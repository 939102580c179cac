(** Proofs about Daemon.v. *)
From Coq Require Import String.
From Verif Require Import Base Codec Tac Maps TreeFacts Str Server Credentials Passwd Listener Daemon SpecDaemon.
Local Open Scope list_scope.

(** ** Reading the document *)
Lemma tidy_keys t : tidy (TTable t) -> NoDup (map fst t).
Proof. intros H. inversion H as [v Hv|t' Hn _]; subst; [exfalso; exact (Hv t eq_refl)|exact Hn]. Qed.
Lemma tidy_in t k v : tidy (TTable t) -> In (k, v) t -> tidy v.
Proof. intros H. inversion H as [w Hw|t' _ Hi]; subst; [exfalso; exact (Hw t eq_refl)|intros Hk; exact (Hi _ _ Hk)]. Qed.
Lemma only_entry t k v v' : tidy (TTable t) -> In (k, v) t -> In (k, v') t -> v = v'.
Proof.
  intros H H1 H2. apply tidy_keys in H. pose proof (in_aget _ beqb_spec k v t H H1) as E1.
  pose proof (in_aget _ beqb_spec k v' t H H2) as E2. congruence.
Qed.
Lemma says_one t k v : says t [k] v <-> In (k, v) t.
Proof.
  split; [|apply says_here]. intros H. inversion H as [|? ? ? ? ? _ H']; subst; [assumption|]. inversion H'.
Qed.
Lemma says_two t k p q v : says t (k :: p :: q) v <-> exists t', In (k, TTable t') t /\ says t' (p :: q) v.
Proof.
  split; [|intros (t' & H1 & H2); exact (says_inside _ _ _ _ _ H1 H2)].
  intros H. inversion H as [|? ? t' ? ? H1 H2]; subst. exists t'. auto.
Qed.
Lemma says_fun t p v v' : tidy (TTable t) -> says t p v -> says t p v' -> v = v'.
Proof.
  intros Ht H. revert Ht v'. induction H as [t k v Hi|t k t1 p v Hi H IH]; intros Ht v' H'.
  - apply says_one in H'. exact (only_entry _ _ _ _ Ht Hi H').
  - destruct p as [|p0 p]; [inversion H|]. apply says_two in H'. destruct H' as (t2 & Hi2 & H').
    pose proof (only_entry _ _ _ _ Ht Hi Hi2) as E. injection E as <-. apply IH; [exact (tidy_in _ _ _ Ht Hi)|exact H'].
Qed.

Section Field.
  Context {A : Type}.
  Lemma field_some k (d : A) rd t a : tidy (TTable t) -> field k d rd t = Some a ->
    (exists v, In (k, v) t /\ rd v = Some a) \/ ((forall v, ~ In (k, v) t) /\ a = d).
  Proof.
    intros Ht. unfold field. destruct (aget bytes_eqb k t) as [v|] eqn:E.
    - intros H. left. exists v. split; [exact (aget_in _ beqb_spec _ _ _ E)|exact H].
    - intros H. injection H as <-. right. split; [|reflexivity]. intros v Hv. apply (aget_none _ beqb_spec) in E.
      apply E. unfold akeys. apply in_map_iff. exists (k, v). auto.
  Qed.
  Lemma field_none k (d : A) rd t : field k d rd t = None -> exists v, In (k, v) t /\ rd v = None.
  Proof.
    unfold field. destruct (aget bytes_eqb k t) as [v|] eqn:E; [|discriminate].
    intros H. exists v. split; [exact (aget_in _ beqb_spec _ _ _ E)|exact H].
  Qed.
  Lemma field_in k (d : A) rd t v : tidy (TTable t) -> In (k, v) t -> field k d rd t = rd v.
  Proof. intros Ht H. unfold field. rewrite (in_aget _ beqb_spec k v t (tidy_keys _ Ht) H). reflexivity. Qed.
  Lemma field_absent k (d : A) rd t : (forall v, ~ In (k, v) t) -> field k d rd t = Some d.
  Proof.
    intros H. unfold field. destruct (aget bytes_eqb k t) as [v|] eqn:E; [|reflexivity].
    exfalso. exact (H v (aget_in _ beqb_spec _ _ _ E)).
  Qed.
End Field.

Lemma read_string_some v s : read_string v = Some s <-> v = TString s.
Proof. destruct v; simpl; split; congruence. Qed.
Lemma read_bool_some v b : read_bool v = Some b <-> v = TBoolean b.
Proof. destruct v; simpl; split; congruence. Qed.
Lemma read_uint_some max v n : read_uint max v = Some n <-> v = TInteger (Z.of_N n) /\ (Z.of_N n <= max)%Z.
Proof.
  destruct v as [|z| | |]; simpl; try (split; [discriminate|intros [H _]; discriminate]).
  destruct (0 <=? z)%Z eqn:E0; simpl.
  - destruct (z <=? max)%Z eqn:E1.
    + split; [intros H; injection H as <-; split; [f_equal|]; lia|intros [H _]; injection H as ->; f_equal; lia].
    + split; [discriminate|]. intros [H Hl]. injection H as ->. lia.
  - split; [discriminate|]. intros [H Hl]. injection H as ->. lia.
Qed.
Lemma read_optional_some v o : read_optional v = Some o <-> exists s, o = Some s /\ v = TString s.
Proof.
  unfold read_optional. destruct v; simpl; try (split; [discriminate|intros (x & _ & H); discriminate]).
  split; [intros H; injection H as <-; exists s; auto|intros (x & -> & H); injection H as ->; reflexivity].
Qed.
Lemma read_section_some {A} (rd : table -> option A) v a : read_section rd v = Some a <-> exists t, v = TTable t /\ rd t = Some a.
Proof.
  destruct v; simpl; try (split; [discriminate|intros (x & H & _); discriminate]).
  split; [intros H; exists t; auto|intros (x & H & H1); injection H as ->; exact H1].
Qed.

(** What a field of a section holds, as the document says it. *)
Definition string_at (t : table) (p : list chars) (o : option chars) : Prop :=
  forall s, o = Some s <-> says t p (TString s).
Definition flag_at (t : table) (p : list chars) (d b : bool) : Prop :=
  says t p (TBoolean b) \/ (silent t p /\ b = d).

(** Whether a section is there or not, its fields are what the whole document says. *)
Definition under (t : table) (k : chars) (s : table) : Prop := In (k, TTable s) t \/ ((forall v, ~ In (k, v) t) /\ s = []).
Lemma under_tidy t k s : tidy (TTable t) -> under t k s -> tidy (TTable s).
Proof.
  intros Ht [H|[_ ->]]; [exact (tidy_in _ _ _ Ht H)|]. apply tidy_table; [constructor|]. intros ? ? [].
Qed.
Lemma under_says t k s p q v : tidy (TTable t) -> under t k s -> (says t (k :: p :: q) v <-> says s (p :: q) v).
Proof.
  intros Ht Hu. rewrite says_two. split.
  - intros (s' & Hi & Hs). destruct Hu as [Hu|[Hn _]]; [|exfalso; exact (Hn _ Hi)].
    pose proof (only_entry _ _ _ _ Ht Hu Hi) as E. injection E as <-. exact Hs.
  - intros Hs. destruct Hu as [Hu|[_ ->]]; [exists s; auto|]. exfalso. inversion Hs; subst; simpl in *; contradiction.
Qed.
Lemma section_under {A} k (d : A) rd t a : tidy (TTable t) -> rd [] = Some d ->
  field k d (read_section rd) t = Some a -> exists s, under t k s /\ rd s = Some a.
Proof.
  intros Ht Hd H. apply field_some in H; [|exact Ht]. destruct H as [(v & Hi & Hv)|[Hn ->]].
  - apply read_section_some in Hv. destruct Hv as (s & -> & Hs). exists s. split; [left; exact Hi|exact Hs].
  - exists []. split; [right; auto|exact Hd].
Qed.
Lemma section_of {A} k (d : A) rd t s : tidy (TTable t) -> rd [] = Some d -> under t k s ->
  field k d (read_section rd) t = rd s.
Proof.
  intros Ht Hd [H|[Hn ->]]; [rewrite (field_in k d _ t _ Ht H); reflexivity|]. rewrite field_absent by exact Hn. auto.
Qed.

Lemma read_string_field t k d s : tidy (TTable t) -> (field k d read_string t = Some s <-> string_or t [k] d s).
Proof.
  intros Ht. unfold string_or, silent. split.
  - intros H. apply field_some in H; [|exact Ht]. destruct H as [(v & Hi & Hv)|[Hn ->]].
    + apply read_string_some in Hv. subst v. left. apply says_here, Hi.
    + right. split; [|reflexivity]. intros v Hv. apply says_one in Hv. exact (Hn v Hv).
  - intros [H|[H ->]]; [apply says_one in H; rewrite (field_in _ _ _ _ _ Ht H); reflexivity|].
    apply field_absent. intros v Hv. exact (H v (says_here _ _ _ Hv)).
Qed.
Lemma read_bool_field t k d b : tidy (TTable t) -> (field k d read_bool t = Some b <-> flag_at t [k] d b).
Proof.
  intros Ht. unfold flag_at, silent. split.
  - intros H. apply field_some in H; [|exact Ht]. destruct H as [(v & Hi & Hv)|[Hn ->]].
    + apply read_bool_some in Hv. subst v. left. apply says_here, Hi.
    + right. split; [|reflexivity]. intros v Hv. apply says_one in Hv. exact (Hn v Hv).
  - intros [H|[H ->]]; [apply says_one in H; rewrite (field_in _ _ _ _ _ Ht H); reflexivity|].
    apply field_absent. intros v Hv. exact (H v (says_here _ _ _ Hv)).
Qed.
Lemma read_uint_field t k max d n : tidy (TTable t) -> (Z.of_N d <= max)%Z ->
  (field k d (read_uint max) t = Some n <-> number_or t [k] d n /\ (Z.of_N n <= max)%Z).
Proof.
  intros Ht Hd. unfold number_or, silent. split.
  - intros H. apply field_some in H; [|exact Ht]. destruct H as [(v & Hi & Hv)|[Hn ->]].
    + apply read_uint_some in Hv. destruct Hv as [-> Hl]. split; [|exact Hl]. left. apply says_here, Hi.
    + split; [|exact Hd]. right. split; [|reflexivity]. intros v Hv. apply says_one in Hv. exact (Hn v Hv).
  - intros [[H|[H ->]] Hl]; [apply says_one in H; rewrite (field_in _ _ _ _ _ Ht H); apply read_uint_some; auto|].
    apply field_absent. intros v Hv. exact (H v (says_here _ _ _ Hv)).
Qed.
Lemma read_optional_field t k o : tidy (TTable t) ->
  (field k None read_optional t = Some o <-> string_at t [k] o /\ forall v, says t [k] v -> a_string v).
Proof.
  intros Ht. unfold string_at. split.
  - intros H. apply field_some in H; [|exact Ht]. destruct H as [(v & Hi & Hv)|[Hn ->]].
    + apply read_optional_some in Hv. destruct Hv as (s & -> & ->). split.
      * intros s'. rewrite says_one. split; [intros E; injection E as <-; exact Hi|].
        intros H. pose proof (only_entry _ _ _ _ Ht Hi H). congruence.
      * intros v Hv. apply says_one in Hv. rewrite <- (only_entry _ _ _ _ Ht Hi Hv). exists s. reflexivity.
    + split; [|intros v Hv; apply says_one in Hv; exfalso; exact (Hn v Hv)].
      intros s. rewrite says_one. split; [discriminate|]. intros H. exfalso. exact (Hn _ H).
  - intros [Ho Hs]. unfold field. destruct (aget bytes_eqb k t) as [v|] eqn:E.
    + apply (aget_in _ beqb_spec) in E. destruct (Hs v (says_here _ _ _ E)) as [s ->]. apply read_optional_some. exists s.
      split; [|reflexivity]. apply Ho, says_here, E.
    + destruct o as [s|]; [|reflexivity]. exfalso. apply (aget_none _ beqb_spec) in E. apply E. unfold akeys. apply in_map_iff.
      exists (k, TString s). split; [reflexivity|]. apply says_one, Ho. reflexivity.
Qed.

(** The whole configuration, as the document says it. *)
Definition reads (t : table) (d : daemon_settings) : Prop :=
  string_or t [str "server"; str "host"] (str "127.0.0.1") (ss_host (ds_server d))
  /\ number_or t [str "server"; str "port"] 1883 (ss_port (ds_server d)) /\ ss_port (ds_server d) <= 65535
  /\ number_or t [str "server"; str "max_connections"] 10000 (ss_max_connections (ds_server d))
  /\ flag_at t [str "server"; str "tls"; str "enabled"] false (ts_enabled (ss_tls (ds_server d)))
  /\ string_at t [str "server"; str "tls"; str "cert_path"] (ts_cert (ss_tls (ds_server d)))
  /\ string_at t [str "server"; str "tls"; str "key_path"] (ts_key (ss_tls (ds_server d)))
  /\ string_at t [str "server"; str "tls"; str "ca_path"] (ts_ca (ss_tls (ds_server d)))
  /\ string_or t [str "logging"; str "level"] (str "info") (ds_log_level d)
  /\ flag_at t [str "auth"; str "enabled"] false (af_enabled (ds_auth d))
  /\ flag_at t [str "auth"; str "allow_anonymous"] true (af_allow_anonymous (ds_auth d))
  /\ string_at t [str "auth"; str "password_file"] (af_password_file (ds_auth d)).

Lemma says_unread {A} t k (d : A) rd v : tidy (TTable t) -> says t [k] v -> rd v = None -> field k d rd t = None.
Proof. intros Ht H Hv. apply says_one in H. rewrite (field_in _ _ _ _ _ Ht H). exact Hv. Qed.
(** A field that is read has its type, whatever the default. *)
Lemma field_typed {A} t k (d : A) rd a (P : toml -> Prop) : tidy (TTable t) -> (forall v b, rd v = Some b -> P v) ->
  field k d rd t = Some a -> forall v, says t [k] v -> P v.
Proof. intros Ht HP H v Hv. apply says_one in Hv. rewrite (field_in _ _ _ _ _ Ht Hv) in H. exact (HP _ _ H). Qed.
Lemma field_readable {A} t k (d : A) rd (P : toml -> Prop) : (forall v, P v -> exists b, rd v = Some b) ->
  (forall v, says t [k] v -> P v) -> exists a, field k d rd t = Some a.
Proof.
  intros HP H. destruct (field k d rd t) as [a|] eqn:E; [exists a; reflexivity|]. apply field_none in E.
  destruct E as (v & Hi & Hv). destruct (HP v (H v (says_here _ _ _ Hi))) as [b Hb]. congruence.
Qed.
Lemma typed_string v s : read_string v = Some s -> a_string v.
Proof. intros H. apply read_string_some in H. exists s. exact H. Qed.
Lemma typed_optional v s : read_optional v = Some s -> a_string v.
Proof. intros H. apply read_optional_some in H. destruct H as (x & _ & H). exists x. exact H. Qed.
Lemma typed_bool v b : read_bool v = Some b -> a_boolean v.
Proof. intros H. apply read_bool_some in H. exists b. exact H. Qed.
Lemma typed_uint max v n : read_uint max v = Some n -> a_number_to max v.
Proof. intros H. apply read_uint_some in H. exists (Z.of_N n). split; [apply H|]. split; [lia|apply H]. Qed.
Lemma typed_section {A} (rd : table -> option A) v a : read_section rd v = Some a -> a_table v.
Proof. intros H. apply read_section_some in H. destruct H as (t & H & _). exists t. exact H. Qed.
Lemma string_typed v : a_string v -> exists s, read_string v = Some s.
Proof. intros [s ->]. exists s. reflexivity. Qed.
Lemma optional_typed v : a_string v -> exists s, read_optional v = Some s.
Proof. intros [s ->]. exists (Some s). reflexivity. Qed.
Lemma bool_typed v : a_boolean v -> exists b, read_bool v = Some b.
Proof. intros [s ->]. exists s. reflexivity. Qed.
Lemma uint_typed max v : a_number_to max v -> exists n, read_uint max v = Some n.
Proof. intros (z & -> & H). exists (Z.to_N z). apply read_uint_some. split; [f_equal|]; lia. Qed.

(** One section: what is said in it, and the types. *)
Lemma tls_read s x : tidy (TTable s) -> read_tls s = Some x ->
  flag_at s [str "enabled"] false (ts_enabled x) /\ string_at s [str "cert_path"] (ts_cert x)
  /\ string_at s [str "key_path"] (ts_key x) /\ string_at s [str "ca_path"] (ts_ca x)
  /\ (forall v, says s [str "enabled"] v -> a_boolean v) /\ (forall v, says s [str "cert_path"] v -> a_string v)
  /\ (forall v, says s [str "key_path"] v -> a_string v) /\ (forall v, says s [str "ca_path"] v -> a_string v).
Proof.
  intros Ht. unfold read_tls. destruct (field (str "enabled") false read_bool s) as [e|] eqn:E1; [|discriminate].
  destruct (field (str "cert_path") None read_optional s) as [c|] eqn:E2; [|discriminate].
  destruct (field (str "key_path") None read_optional s) as [k|] eqn:E3; [|discriminate].
  destruct (field (str "ca_path") None read_optional s) as [a|] eqn:E4; [|discriminate].
  intros H. injection H as <-. cbn [ts_enabled ts_cert ts_key ts_ca].
  pose proof (field_typed _ _ _ _ _ _ Ht typed_bool E1) as T1.
  apply read_bool_field in E1; [|exact Ht]. apply read_optional_field in E2; [|exact Ht].
  apply read_optional_field in E3; [|exact Ht]. apply read_optional_field in E4; [|exact Ht]. intuition.
Qed.
Lemma tls_readable s : (forall v, says s [str "enabled"] v -> a_boolean v) -> (forall v, says s [str "cert_path"] v -> a_string v) ->
  (forall v, says s [str "key_path"] v -> a_string v) -> (forall v, says s [str "ca_path"] v -> a_string v) ->
  exists x, read_tls s = Some x.
Proof.
  intros H1 H2 H3 H4. unfold read_tls.
  destruct (field_readable s _ false _ _ bool_typed H1) as [e ->]. destruct (field_readable s _ None _ _ optional_typed H2) as [c ->].
  destruct (field_readable s _ None _ _ optional_typed H3) as [k ->]. destruct (field_readable s _ None _ _ optional_typed H4) as [a ->].
  eexists. reflexivity.
Qed.
Lemma tls_empty : read_tls [] = Some tls_default.
Proof. reflexivity. Qed.
Lemma server_empty : read_server [] = Some server_default.
Proof. reflexivity. Qed.
Lemma logging_empty : read_logging [] = Some (str "info").
Proof. reflexivity. Qed.
Lemma auth_empty : read_auth [] = Some auth_default.
Proof. reflexivity. Qed.
Lemma flag_under t k s p q d b : tidy (TTable t) -> under t k s -> flag_at s (p :: q) d b -> flag_at t (k :: p :: q) d b.
Proof.
  intros Ht Hu [H|[H E]]; [left|right; split; [|exact E]].
  - apply (under_says t k s p q _ Ht Hu), H.
  - intros v Hv. apply (under_says t k s p q v Ht Hu) in Hv. exact (H v Hv).
Qed.
Lemma string_or_under t k s p q d b : tidy (TTable t) -> under t k s -> string_or s (p :: q) d b -> string_or t (k :: p :: q) d b.
Proof.
  intros Ht Hu [H|[H E]]; [left|right; split; [|exact E]].
  - apply (under_says t k s p q _ Ht Hu), H.
  - intros v Hv. apply (under_says t k s p q v Ht Hu) in Hv. exact (H v Hv).
Qed.
Lemma number_or_under t k s p q d b : tidy (TTable t) -> under t k s -> number_or s (p :: q) d b -> number_or t (k :: p :: q) d b.
Proof.
  intros Ht Hu [H|[H E]]; [left|right; split; [|exact E]].
  - apply (under_says t k s p q _ Ht Hu), H.
  - intros v Hv. apply (under_says t k s p q v Ht Hu) in Hv. exact (H v Hv).
Qed.
Lemma string_at_under t k s p q o : tidy (TTable t) -> under t k s -> string_at s (p :: q) o -> string_at t (k :: p :: q) o.
Proof. intros Ht Hu H x. rewrite (under_says t k s p q _ Ht Hu). apply H. Qed.

Lemma read_settings_some t d : tidy (TTable t) -> read_settings t = Some d -> reads t d /\ conforms t.
Proof.
  intros Ht. unfold read_settings.
  destruct (field (str "server") server_default (read_section read_server) t) as [sv|] eqn:E1; [|discriminate].
  destruct (field (str "logging") (str "info") (read_section read_logging) t) as [lg|] eqn:E2; [|discriminate].
  destruct (field (str "auth") auth_default (read_section read_auth) t) as [au|] eqn:E3; [|discriminate].
  intros H. injection H as <-. unfold reads. cbn [ds_server ds_log_level ds_auth].
  pose proof (field_typed _ _ _ _ _ _ Ht (typed_section _) E1) as T1. pose proof (field_typed _ _ _ _ _ _ Ht (typed_section _) E2) as T2.
  pose proof (field_typed _ _ _ _ _ _ Ht (typed_section _) E3) as T3.
  destruct (section_under _ _ _ _ _ Ht server_empty E1) as (s1 & U1 & R1).
  destruct (section_under _ _ _ _ _ Ht logging_empty E2) as (s2 & U2 & R2).
  destruct (section_under _ _ _ _ _ Ht auth_empty E3) as (s3 & U3 & R3). clear E1 E2 E3.
  pose proof (under_tidy _ _ _ Ht U1) as Ht1. pose proof (under_tidy _ _ _ Ht U2) as Ht2. pose proof (under_tidy _ _ _ Ht U3) as Ht3.
  unfold read_server in R1. destruct (field (str "host") (str "127.0.0.1") read_string s1) as [h|] eqn:F1; [|discriminate].
  destruct (field (str "port") 1883 (read_uint 65535) s1) as [pt|] eqn:F2; [|discriminate].
  destruct (field (str "max_connections") 10000 (read_uint 18446744073709551615) s1) as [mx|] eqn:F3; [|discriminate].
  destruct (field (str "tls") tls_default (read_section read_tls) s1) as [x|] eqn:F4; [|discriminate]. injection R1 as <-.
  unfold read_logging in R2. pose proof (field_typed _ _ _ _ _ _ Ht2 typed_string R2) as TL.
  unfold read_auth in R3. destruct (field (str "enabled") false read_bool s3) as [e|] eqn:G1; [|discriminate].
  destruct (field (str "allow_anonymous") true read_bool s3) as [an|] eqn:G2; [|discriminate].
  destruct (field (str "password_file") None read_optional s3) as [pf|] eqn:G3; [|discriminate]. injection R3 as <-.
  cbn [ss_host ss_port ss_max_connections ss_tls af_enabled af_allow_anonymous af_password_file].
  pose proof (field_typed _ _ _ _ _ _ Ht1 typed_string F1) as V1. pose proof (field_typed _ _ _ _ _ _ Ht1 (typed_uint _) F2) as V2.
  pose proof (field_typed _ _ _ _ _ _ Ht1 (typed_uint _) F3) as V3. pose proof (field_typed _ _ _ _ _ _ Ht1 (typed_section _) F4) as V4.
  pose proof (field_typed _ _ _ _ _ _ Ht3 typed_bool G1) as W1. pose proof (field_typed _ _ _ _ _ _ Ht3 typed_bool G2) as W2.
  pose proof (field_typed _ _ _ _ _ _ Ht3 typed_optional G3) as W3.
  destruct (section_under _ _ _ _ _ Ht1 tls_empty F4) as (s4 & U4 & R4). pose proof (under_tidy _ _ _ Ht1 U4) as Ht4.
  destruct (tls_read s4 x Ht4 R4) as (K1 & K2 & K3 & K4 & X1 & X2 & X3 & X4).
  apply read_string_field in F1; [|exact Ht1]. apply read_uint_field in F2; [|exact Ht1|lia]. apply read_uint_field in F3; [|exact Ht1|lia].
  apply read_string_field in R2; [|exact Ht2]. apply read_bool_field in G1; [|exact Ht3]. apply read_bool_field in G2; [|exact Ht3].
  apply read_optional_field in G3; [|exact Ht3]. destruct F2 as [F2 F2l], F3 as [F3 _], G3 as [G3 _].
  split.
  - repeat match goal with |- _ /\ _ => split end; try lia;
      first [apply (string_or_under _ _ _ _ _ _ _ Ht U1), F1|apply (number_or_under _ _ _ _ _ _ _ Ht U1), F2
        |apply (number_or_under _ _ _ _ _ _ _ Ht U1), F3|apply (flag_under _ _ _ _ _ _ _ Ht U1), (flag_under _ _ _ _ _ _ _ Ht1 U4), K1
        |apply (string_at_under _ _ _ _ _ _ Ht U1), (string_at_under _ _ _ _ _ _ Ht1 U4), K2
        |apply (string_at_under _ _ _ _ _ _ Ht U1), (string_at_under _ _ _ _ _ _ Ht1 U4), K3
        |apply (string_at_under _ _ _ _ _ _ Ht U1), (string_at_under _ _ _ _ _ _ Ht1 U4), K4
        |apply (string_or_under _ _ _ _ _ _ _ Ht U2), R2|apply (flag_under _ _ _ _ _ _ _ Ht U3), G1
        |apply (flag_under _ _ _ _ _ _ _ Ht U3), G2|apply (string_at_under _ _ _ _ _ _ Ht U3), G3].
  - split.
    + intros p P v HP Hv. destruct HP; 
        first [apply (under_says _ _ _ _ _ _ Ht U1) in Hv|apply (under_says _ _ _ _ _ _ Ht U2) in Hv|apply (under_says _ _ _ _ _ _ Ht U3) in Hv];
        try (apply (under_says _ _ _ _ _ _ Ht1 U4) in Hv); auto.
    + intros p v Hp Hv. destruct Hp; auto. apply (under_says _ _ _ _ _ _ Ht U1) in Hv. auto.
Qed.
Lemma under_exists t k : (forall v, says t [k] v -> a_table v) -> exists s, under t k s.
Proof.
  intros H. destruct (aget bytes_eqb k t) as [v|] eqn:E.
  - apply (aget_in _ beqb_spec) in E. destruct (H v (says_here _ _ _ E)) as [s ->]. exists s. left. exact E.
  - exists []. right. split; [|reflexivity]. intros v Hv. apply (aget_none _ beqb_spec) in E. apply E.
    unfold akeys. apply in_map_iff. exists (k, v). auto.
Qed.
Lemma read_settings_conforms t : tidy (TTable t) -> conforms t -> exists d, read_settings t = Some d.
Proof.
  intros Ht [Hc Hs].
  destruct (under_exists t (str "server") (fun v => Hs _ v sec_server)) as [s1 U1].
  destruct (under_exists t (str "logging") (fun v => Hs _ v sec_logging)) as [s2 U2].
  destruct (under_exists t (str "auth") (fun v => Hs _ v sec_auth)) as [s3 U3].
  pose proof (under_tidy _ _ _ Ht U1) as Ht1. pose proof (under_tidy _ _ _ Ht U2) as Ht2. pose proof (under_tidy _ _ _ Ht U3) as Ht3.
  assert (Hc1 : forall p P v, setting (str "server" :: p) P -> says s1 p v -> P v).
  { intros p P v HP Hv. destruct p as [|k p]; [inversion Hv|]. apply (Hc _ P v HP), (under_says _ _ _ _ _ _ Ht U1), Hv. }
  assert (Hc2 : forall p P v, setting (str "logging" :: p) P -> says s2 p v -> P v).
  { intros p P v HP Hv. destruct p as [|k p]; [inversion Hv|]. apply (Hc _ P v HP), (under_says _ _ _ _ _ _ Ht U2), Hv. }
  assert (Hc3 : forall p P v, setting (str "auth" :: p) P -> says s3 p v -> P v).
  { intros p P v HP Hv. destruct p as [|k p]; [inversion Hv|]. apply (Hc _ P v HP), (under_says _ _ _ _ _ _ Ht U3), Hv. }
  assert (H4 : forall v, says s1 [str "tls"] v -> a_table v).
  { intros v Hv. apply (Hs _ v sec_tls), (under_says _ _ _ _ _ _ Ht U1), Hv. }
  destruct (under_exists s1 (str "tls") H4) as [s4 U4].
  assert (Hc4 : forall p P v, setting (str "server" :: str "tls" :: p) P -> says s4 p v -> P v).
  { intros p P v HP Hv. destruct p as [|k p]; [inversion Hv|]. apply (Hc1 _ P v HP), (under_says _ _ _ _ _ _ Ht1 U4), Hv. }
  unfold read_settings. rewrite (section_of _ _ _ _ _ Ht server_empty U1), (section_of _ _ _ _ _ Ht logging_empty U2),
    (section_of _ _ _ _ _ Ht auth_empty U3). unfold read_server, read_logging, read_auth.
  destruct (field_readable s1 _ (str "127.0.0.1") _ _ string_typed (fun v => Hc1 _ _ v set_host)) as [a1 ->].
  destruct (field_readable s1 _ 1883 _ _ (uint_typed _) (fun v => Hc1 _ _ v set_port)) as [a2 ->].
  destruct (field_readable s1 _ 10000 _ _ (uint_typed _) (fun v => Hc1 _ _ v set_max)) as [a3 ->].
  rewrite (section_of _ _ _ _ _ Ht1 tls_empty U4).
  destruct (tls_readable s4 (fun v => Hc4 _ _ v set_tls) (fun v => Hc4 _ _ v set_cert) (fun v => Hc4 _ _ v set_key)
    (fun v => Hc4 _ _ v set_ca)) as [a4 ->].
  destruct (field_readable s2 _ (str "info") _ _ string_typed (fun v => Hc2 _ _ v set_level)) as [a5 ->].
  destruct (field_readable s3 _ false _ _ bool_typed (fun v => Hc3 _ _ v set_auth)) as [a6 ->].
  destruct (field_readable s3 _ true _ _ bool_typed (fun v => Hc3 _ _ v set_anonymous)) as [a7 ->].
  destruct (field_readable s3 _ None _ _ optional_typed (fun v => Hc3 _ _ v set_password_file)) as [a8 ->].
  eexists. reflexivity.
Qed.

(** ** What a document says decides the configuration *)
Lemma string_or_fun t p d s s' : tidy (TTable t) -> string_or t p d s -> string_or t p d s' -> s = s'.
Proof.
  intros Ht [H|[H E]] [H'|[H' E']]; [pose proof (says_fun _ _ _ _ Ht H H'); congruence| | |congruence].
  - exfalso. exact (H' _ H).
  - exfalso. exact (H _ H').
Qed.
Lemma number_or_fun t p d s s' : tidy (TTable t) -> number_or t p d s -> number_or t p d s' -> s = s'.
Proof.
  intros Ht [H|[H E]] [H'|[H' E']]; [pose proof (says_fun _ _ _ _ Ht H H') as E; injection E; lia| | |congruence].
  - exfalso. exact (H' _ H).
  - exfalso. exact (H _ H').
Qed.
Lemma flag_at_fun t p d s s' : tidy (TTable t) -> flag_at t p d s -> flag_at t p d s' -> s = s'.
Proof.
  intros Ht [H|[H E]] [H'|[H' E']]; [pose proof (says_fun _ _ _ _ Ht H H'); congruence| | |congruence].
  - exfalso. exact (H' _ H).
  - exfalso. exact (H _ H').
Qed.
Lemma string_at_fun t p o o' : string_at t p o -> string_at t p o' -> o = o'.
Proof.
  intros H H'. destruct o as [s|], o' as [s'|]; [|exfalso|exfalso|reflexivity].
  - symmetry. apply H', H. reflexivity.
  - assert (E : @None chars = Some s) by (apply H', H; reflexivity). discriminate.
  - assert (E : @None chars = Some s') by (apply H, H'; reflexivity). discriminate.
Qed.
Lemma reads_fun t d d' : tidy (TTable t) -> reads t d -> reads t d' -> d = d'.
Proof.
  intros Ht (A1 & A2 & _ & A3 & A4 & A5 & A6 & A7 & A8 & A9 & A10 & A11) (B1 & B2 & _ & B3 & B4 & B5 & B6 & B7 & B8 & B9 & B10 & B11).
  destruct d as [[h p m [e c k a]] l [f n w]], d' as [[h' p' m' [e' c' k' a']] l' [f' n' w']]. cbn in *.
  rewrite (string_or_fun _ _ _ _ _ Ht A1 B1), (number_or_fun _ _ _ _ _ Ht A2 B2), (number_or_fun _ _ _ _ _ Ht A3 B3),
    (flag_at_fun _ _ _ _ _ Ht A4 B4), (string_at_fun _ _ _ _ A5 B5), (string_at_fun _ _ _ _ A6 B6), (string_at_fun _ _ _ _ A7 B7),
    (string_or_fun _ _ _ _ _ Ht A8 B8), (flag_at_fun _ _ _ _ _ Ht A9 B9), (flag_at_fun _ _ _ _ _ Ht A10 B10),
    (string_at_fun _ _ _ _ A11 B11). reflexivity.
Qed.
Lemma reads_same t t' d : (forall p P v, setting p P -> (says t p v <-> says t' p v)) -> reads t d -> reads t' d.
Proof.
  intros H (A1 & A2 & A2l & A3 & A4 & A5 & A6 & A7 & A8 & A9 & A10 & A11).
  assert (Hs : forall p P dd s, setting p P -> string_or t p dd s -> string_or t' p dd s).
  { intros p P dd s HP [K|[K E]]; [left; apply (H p P _ HP), K|]. right. split; [|exact E]. intros v Hv. apply (K v), (H p P v HP), Hv. }
  assert (Hn : forall p P dd s, setting p P -> number_or t p dd s -> number_or t' p dd s).
  { intros p P dd s HP [K|[K E]]; [left; apply (H p P _ HP), K|]. right. split; [|exact E]. intros v Hv. apply (K v), (H p P v HP), Hv. }
  assert (Hf : forall p P dd s, setting p P -> flag_at t p dd s -> flag_at t' p dd s).
  { intros p P dd s HP [K|[K E]]; [left; apply (H p P _ HP), K|]. right. split; [|exact E]. intros v Hv. apply (K v), (H p P v HP), Hv. }
  assert (Ho : forall p P o, setting p P -> string_at t p o -> string_at t' p o).
  { intros p P o HP K s. rewrite <- (H p P _ HP). apply K. }
  split; [exact (Hs _ _ _ _ set_host A1)|]. split; [exact (Hn _ _ _ _ set_port A2)|]. split; [exact A2l|].
  split; [exact (Hn _ _ _ _ set_max A3)|]. split; [exact (Hf _ _ _ _ set_tls A4)|]. split; [exact (Ho _ _ _ set_cert A5)|].
  split; [exact (Ho _ _ _ set_key A6)|]. split; [exact (Ho _ _ _ set_ca A7)|]. split; [exact (Hs _ _ _ _ set_level A8)|].
  split; [exact (Hf _ _ _ _ set_auth A9)|]. split; [exact (Hf _ _ _ _ set_anonymous A10)|exact (Ho _ _ _ set_password_file A11)].
Qed.

(** ** Numbers in the address *)
Lemma number_of_app a b : number_of (a ++ [b]) = 10 * number_of a + (b - 48).
Proof. unfold number_of. rewrite fold_left_app. reflexivity. Qed.
Lemma dec_rev_spec f : forall n, n < 10 ^ N.of_nat f -> 0 < N.of_nat f ->
  Forall digit (dec_rev f n) /\ dec_rev f n <> [] /\ number_of (rev (dec_rev f n)) = n
  /\ (forall r, rev (dec_rev f n) = 48 :: r -> r = []).
Proof.
  induction f as [|f IH]; intros n Hn Hf; [lia|]. cbn [dec_rev].
  pose proof (N.mod_lt n 10 ltac:(lia)) as Hm. pose proof (N.div_mod n 10 ltac:(lia)) as Hd.
  assert (Hdig : digit (48 + n mod 10)) by (unfold digit; lia).
  destruct (n / 10 =? 0) eqn:E.
  - split; [repeat constructor; apply Hdig|]. split; [discriminate|]. split; [unfold number_of; cbn; lia|].
    intros r Hr. cbn in Hr. congruence.
  - assert (Hn' : n / 10 < 10 ^ N.of_nat f).
    { apply N.div_lt_upper_bound; [lia|]. rewrite Nat2N.inj_succ, N.pow_succ_r' in Hn. exact Hn. }
    assert (Hf' : 0 < N.of_nat f).
    { destruct f; [|lia]. cbn in Hn'. lia. }
    destruct (IH _ Hn' Hf') as (H1 & H2 & H3 & H4). split; [constructor; assumption|]. split; [discriminate|].
    cbn [rev]. split; [rewrite number_of_app, H3; lia|].
    intros r Hr. destruct (rev (dec_rev f (n / 10))) as [|c x] eqn:Ex.
    { exfalso. apply H2. rewrite <- (rev_involutive (dec_rev f (n / 10))), Ex. reflexivity. }
    cbn in Hr. injection Hr as -> Hr. pose proof (H4 x eq_refl) as Hx. subst x. unfold number_of in H3. cbn in H3. lia.
Qed.
Lemma decimal_writes n : n < 10 ^ 20 -> writes_number n (decimal n).
Proof.
  intros H. unfold decimal, writes_number. destruct (dec_rev_spec 20 n) as (H1 & H2 & H3 & H4); [exact H|lia|].
  split; [apply Forall_rev; exact H1|]. split; [|split; [exact H3|exact H4]].
  intros E. apply H2. rewrite <- (rev_involutive (dec_rev 20 n)), E. reflexivity.
Qed.
