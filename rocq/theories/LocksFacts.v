(** Invariants of the lock model. *)
From Verif Require Import Base Maps TreeFacts SessionFacts Locks.
From Coq Require Import Lia.

Lemma upd_same {A} (f : nat -> A) k v : upd f k v k = v.
Proof. unfold upd. now rewrite Nat.eqb_refl. Qed.
Lemma upd_other {A} (f : nat -> A) k v x : x <> k -> upd f k v x = f x.
Proof. intros H. unfold upd. apply Nat.eqb_neq in H. now rewrite H. Qed.
Lemma task_set c p l x : task (set_task c p l) x = if Nat.eqb x c then Some p else task l x.
Proof.
  unfold task, set_task. cbn [lk_tasks].
  destruct (Nat.eqb_spec x c) as [->|N]; [now rewrite (aget_put_same _ nateqb_spec) | now rewrite (aget_put_other _ nateqb_spec) by congruence].
Qed.

Definition session_of (p : phase) : option nat :=
  match p with Starts s _ | Works s _ | Listens s | Idles s | Ends s _ => Some s | _ => None end.

(** [ids]: the identifier each connection gave. *)
Record linv (ids : nat -> option nat) (l : locks) : Prop := {
  linv_manager : forall c, lk_manager l = Some c <-> (exists s n, task l c = Some (Starts s n));
  linv_holder : forall s c, lk_holder l s = Some c <-> task l c = Some (Listens s);
  linv_old : forall c p s, task l c = Some p -> session_of p = Some s -> (s < lk_next l)%nat;
  linv_map : forall id s, lk_sessions l id = Some s -> (s < lk_next l)%nat;
  linv_map_id : forall id s c p, lk_sessions l id = Some s -> task l c = Some p -> session_of p = Some s -> ids c = Some id;
  linv_same : forall c p c' p' s, task l c = Some p -> task l c' = Some p' -> session_of p = Some s -> session_of p' = Some s ->
              ids c = ids c';
  linv_map_inj : forall id id' s, lk_sessions l id = Some s -> lk_sessions l id' = Some s -> id = id';
  linv_wants : forall c id b, task l c = Some (Wants id b) -> ids c = Some id;
  linv_known : forall c, task l c = None -> ids c = None;
  linv_has : forall c p, task l c = Some p -> ids c <> None
}.
Definition ids_after (ids : nat -> option nat) (m : move) : nat -> option nat :=
  match m with MConnect c id _ => upd ids c (Some id) | _ => ids end.

Lemma linv_new : linv (fun _ => None) locks_new.
Proof.
  constructor; unfold locks_new, task; cbn; intros; try discriminate; auto.
  - split; [discriminate | intros (s & n & E); discriminate].
  - split; discriminate.
Qed.

Definition task_is (l : locks) (c : nat) (p : phase) (x : nat) : option phase := if Nat.eqb x c then Some p else task l x.

(** A task goes on with the same session, or none. *)
Lemma linv_move ids l c p p' m h b :
  linv ids l -> task l c = Some p -> (session_of p' = session_of p \/ session_of p' = None) ->
  (forall id b, p' <> Wants id b) ->
  (forall x, m = Some x <-> (exists s n, task_is l c p' x = Some (Starts s n))) ->
  (forall s x, h s = Some x <-> task_is l c p' x = Some (Listens s)) ->
  linv ids (set_task c p' (Mk_locks m h b (lk_sessions l) (lk_next l) (lk_tasks l))).
Proof.
  intros I T S W M H. set (l' := Mk_locks _ _ _ _ _ _).
  assert (T' : forall x, task (set_task c p' l') x = task_is l c p' x) by (intros x; apply task_set).
  assert (P : forall x q s, task (set_task c p' l') x = Some q -> session_of q = Some s ->
              exists q0, task l x = Some q0 /\ session_of q0 = Some s).
  { intros x q s. rewrite T'. unfold task_is. destruct (Nat.eqb_spec x c) as [->|N].
    - intros [= <-] E. exists p. split; [exact T|]. destruct S; congruence.
    - intros E Q. exists q. auto. }
  constructor.
  - intros x. rewrite T'. apply M.
  - intros s x. rewrite T'. apply H.
  - intros x q s E Q. destruct (P x q s E Q) as (q0 & E0 & Q0). exact (linv_old _ _ I x q0 s E0 Q0).
  - apply (linv_map _ _ I).
  - intros id s x q G E Q. destruct (P x q s E Q) as (q0 & E0 & Q0). exact (linv_map_id _ _ I id s x q0 G E0 Q0).
  - intros x q x' q' s E E' Q Q'. destruct (P x q s E Q) as (q0 & E0 & Q0). destruct (P x' q' s E' Q') as (q0' & E0' & Q0').
    exact (linv_same _ _ I x q0 x' q0' s E0 E0' Q0 Q0').
  - apply (linv_map_inj _ _ I).
  - intros x id b0. rewrite T'. unfold task_is. destruct (Nat.eqb_spec x c) as [->|N].
    + intros [= E]. now destruct (W _ _ E).
    + apply (linv_wants _ _ I).
  - intros x. rewrite T'. unfold task_is. destruct (Nat.eqb_spec x c) as [->|N]; [discriminate|]. apply (linv_known _ _ I).
  - intros x q. rewrite T'. unfold task_is. destruct (Nat.eqb_spec x c) as [->|N]; [intros _; exact (linv_has _ _ I _ _ T)|]. apply (linv_has _ _ I).
Qed.

(** A task gets the manager's lock and a session. *)
Lemma linv_take_old ids l c id b s :
  linv ids l -> task l c = Some (Wants id b) -> lk_manager l = None -> lk_sessions l id = Some s ->
  linv ids (set_task c (Starts s 4) (set_manager_lock (Some c) l)).
Proof.
  intros I T M G.
  assert (T' : forall x, task (set_task c (Starts s 4) (set_manager_lock (Some c) l)) x = task_is l c (Starts s 4) x)
    by (intros x; apply task_set).
  assert (Ic : ids c = Some id) by exact (linv_wants _ _ I _ _ _ T).
  constructor; cbn [set_task set_manager_lock lk_manager lk_holder lk_sessions lk_next].
  - intros x. rewrite T'. unfold task_is. destruct (Nat.eqb_spec x c) as [->|N].
    + split; [eauto|reflexivity].
    + split; [congruence|]. intros E. apply (linv_manager _ _ I) in E. congruence.
  - intros s' x. rewrite T', (linv_holder _ _ I). unfold task_is.
    destruct (Nat.eqb_spec x c) as [->|N]; [|reflexivity]. rewrite T. split; discriminate.
  - intros x q s'. rewrite T'. unfold task_is. destruct (Nat.eqb_spec x c) as [->|N]; [|apply (linv_old _ _ I)].
    intros [= <-] [= <-]. exact (linv_map _ _ I _ _ G).
  - apply (linv_map _ _ I).
  - intros id' s' x q G'. rewrite T'. unfold task_is. destruct (Nat.eqb_spec x c) as [->|N].
    + intros [= <-] [= <-]. now rewrite (linv_map_inj _ _ I _ _ _ G' G).
    + now apply (linv_map_id _ _ I).
  - assert (K : forall x q, task l x = Some q -> session_of q = Some s -> ids x = ids c).
    { intros x q E Q. rewrite Ic. exact (linv_map_id _ _ I _ _ _ _ G E Q). }
    intros x q x' q' s'. rewrite !T'. unfold task_is.
    destruct (Nat.eqb_spec x c) as [->|N]; destruct (Nat.eqb_spec x' c) as [->|N']; auto.
    + intros [= <-] E [= <-] Q. symmetry. exact (K _ _ E Q).
    + intros E [= <-] Q [= <-]. exact (K _ _ E Q).
    + apply (linv_same _ _ I).
  - apply (linv_map_inj _ _ I).
  - intros x id' b'. rewrite T'. unfold task_is. destruct (Nat.eqb_spec x c) as [->|N]; [discriminate|]. apply (linv_wants _ _ I).
  - intros x. rewrite T'. unfold task_is. destruct (Nat.eqb_spec x c) as [->|N]; [discriminate|]. apply (linv_known _ _ I).
  - intros x q. rewrite T'. unfold task_is. destruct (Nat.eqb_spec x c) as [->|N]; [congruence|]. apply (linv_has _ _ I).
Qed.
Lemma linv_take_new ids l c id b :
  linv ids l -> task l c = Some (Wants id b) -> lk_manager l = None ->
  linv ids (set_task c (Starts (lk_next l) 3) (new_session id (set_manager_lock (Some c) l))).
Proof.
  intros I T M. set (s := lk_next l).
  assert (T' : forall x, task (set_task c (Starts s 3) (new_session id (set_manager_lock (Some c) l))) x = task_is l c (Starts s 3) x)
    by (intros x; apply task_set).
  assert (Ic : ids c = Some id) by exact (linv_wants _ _ I _ _ _ T).
  assert (F : forall x q s', task l x = Some q -> session_of q = Some s' -> s' <> s).
  { intros x q s' E Q. pose proof (linv_old _ _ I _ _ _ E Q). unfold s. lia. }
  assert (Fm : forall id' s', lk_sessions l id' = Some s' -> s' <> s).
  { intros id' s' E. pose proof (linv_map _ _ I _ _ E). unfold s. lia. }
  constructor; cbn [set_task new_session set_manager_lock lk_manager lk_holder lk_sessions lk_next].
  - intros x. rewrite T'. unfold task_is. destruct (Nat.eqb_spec x c) as [->|N].
    + split; [eauto|reflexivity].
    + split; [congruence|]. intros E. apply (linv_manager _ _ I) in E. congruence.
  - intros s' x. rewrite T', (linv_holder _ _ I). unfold task_is.
    destruct (Nat.eqb_spec x c) as [->|N]; [|reflexivity]. rewrite T. split; discriminate.
  - intros x q s'. rewrite T'. unfold task_is. destruct (Nat.eqb_spec x c) as [->|N].
    + intros [= <-] [= <-]. unfold s. lia.
    + intros E Q. pose proof (linv_old _ _ I _ _ _ E Q). lia.
  - intros id' s'. unfold upd. destruct (Nat.eqb id' id); [intros [= <-]; lia|].
    intros E. pose proof (linv_map _ _ I _ _ E). lia.
  - intros id' s' x q. rewrite T'. unfold task_is, upd. destruct (Nat.eqb_spec id' id) as [->|Ni]; destruct (Nat.eqb_spec x c) as [->|N].
    + auto.
    + intros [= <-] E Q. now destruct (F _ _ _ E Q).
    + intros G [= <-] [= <-]. now destruct (Fm _ _ G).
    + apply (linv_map_id _ _ I).
  - intros x q x' q' s'. rewrite !T'. unfold task_is.
    destruct (Nat.eqb_spec x c) as [->|N]; destruct (Nat.eqb_spec x' c) as [->|N']; auto.
    + intros [= <-] E [= <-] Q. now destruct (F _ _ _ E Q).
    + intros E [= <-] Q [= <-]. now destruct (F _ _ _ E Q).
    + apply (linv_same _ _ I).
  - intros i i' s'. unfold upd. destruct (Nat.eqb_spec i id) as [->|N]; destruct (Nat.eqb_spec i' id) as [->|N']; auto.
    + intros [= <-] E. now destruct (Fm _ _ E).
    + intros E [= <-]. now destruct (Fm _ _ E).
    + apply (linv_map_inj _ _ I).
  - intros x id' b'. rewrite T'. unfold task_is. destruct (Nat.eqb_spec x c) as [->|N]; [discriminate|]. apply (linv_wants _ _ I).
  - intros x. rewrite T'. unfold task_is. destruct (Nat.eqb_spec x c) as [->|N]; [discriminate|]. apply (linv_known _ _ I).
  - intros x q. rewrite T'. unfold task_is. destruct (Nat.eqb_spec x c) as [->|N]; [congruence|]. apply (linv_has _ _ I).
Qed.
Lemma linv_connect ids l c id b :
  linv ids l -> task l c = None -> linv (upd ids c (Some id)) (set_task c (Wants id b) l).
Proof.
  intros I T.
  assert (T' : forall x, task (set_task c (Wants id b) l) x = task_is l c (Wants id b) x) by (intros x; apply task_set).
  assert (U : forall x q, task l x = Some q -> upd ids c (Some id) x = ids x).
  { intros x q E. apply upd_other. intros ->. congruence. }
  constructor; cbn [set_task lk_manager lk_holder lk_sessions lk_next].
  - intros x. rewrite T', (linv_manager _ _ I). unfold task_is. destruct (Nat.eqb_spec x c) as [->|N]; [|reflexivity].
    rewrite T. split; intros (s & n & E); discriminate.
  - intros s x. rewrite T', (linv_holder _ _ I). unfold task_is. destruct (Nat.eqb_spec x c) as [->|N]; [|reflexivity].
    rewrite T. split; discriminate.
  - intros x q s. rewrite T'. unfold task_is. destruct (Nat.eqb_spec x c) as [->|N]; [|apply (linv_old _ _ I)]. now intros [= <-].
  - apply (linv_map _ _ I).
  - intros i s x q G. rewrite T'. unfold task_is. destruct (Nat.eqb_spec x c) as [->|N]; [now intros [= <-]|].
    intros E Q. rewrite (U _ _ E). exact (linv_map_id _ _ I _ _ _ _ G E Q).
  - intros x q x' q' s. rewrite !T'. unfold task_is.
    destruct (Nat.eqb_spec x c) as [->|N]; [now intros [= <-]|].
    destruct (Nat.eqb_spec x' c) as [->|N']; [now intros _ [= <-]|].
    intros E E' Q Q'. rewrite (U _ _ E), (U _ _ E'). exact (linv_same _ _ I _ _ _ _ _ E E' Q Q').
  - apply (linv_map_inj _ _ I).
  - intros x i b'. rewrite T'. unfold task_is. destruct (Nat.eqb_spec x c) as [->|N].
    + intros [= -> ->]. apply upd_same.
    + intros E. rewrite (U _ _ E). exact (linv_wants _ _ I _ _ _ E).
  - intros x. rewrite T'. unfold task_is. destruct (Nat.eqb_spec x c) as [->|N]; [discriminate|].
    intros E. rewrite upd_other by assumption. now apply (linv_known _ _ I).
  - intros x q. rewrite T'. unfold task_is. destruct (Nat.eqb_spec x c) as [->|N]; [now rewrite upd_same|].
    intros E. rewrite (U _ _ E). exact (linv_has _ _ I _ _ E).
Qed.

Ltac split_task :=
  repeat match goal with
  | |- context [Nat.eqb ?x ?c] => destruct (Nat.eqb_spec x c); subst
  | H : context [Nat.eqb ?x ?c] |- _ => destruct (Nat.eqb_spec x c); subst
  end.
(** The manager's lock, when the task neither gets nor releases it. *)
Lemma keep_manager ids l c p p' x :
  linv ids l -> task l c = Some p -> (forall s n, p <> Starts s n) -> (forall s n, p' <> Starts s n) ->
  lk_manager l = Some x <-> (exists s n, task_is l c p' x = Some (Starts s n)).
Proof.
  intros I T N N'. rewrite (linv_manager _ _ I). unfold task_is. destruct (Nat.eqb_spec x c) as [->|Nx]; [|reflexivity].
  rewrite T. split; intros (s & n & [= E]); [now destruct (N s n) | now destruct (N' s n)].
Qed.
Lemma keep_holder ids l c p p' s x :
  linv ids l -> task l c = Some p -> (forall s, p <> Listens s) -> (forall s, p' <> Listens s) ->
  lk_holder l s = Some x <-> task_is l c p' x = Some (Listens s).
Proof.
  intros I T N N'. rewrite (linv_holder _ _ I). unfold task_is. destruct (Nat.eqb_spec x c) as [->|Nx]; [|reflexivity].
  rewrite T. split; intros [= E]; [now destruct (N s) | now destruct (N' s)].
Qed.
Lemma drop_holder ids l c p' s s' x :
  linv ids l -> task l c = Some (Listens s) -> (forall s, p' <> Listens s) ->
  upd (lk_holder l) s None s' = Some x <-> task_is l c p' x = Some (Listens s').
Proof.
  intros I T N'. unfold task_is, upd.
  assert (H : lk_holder l s = Some c) by now apply (linv_holder _ _ I).
  destruct (Nat.eqb_spec s' s) as [->|Ns]; destruct (Nat.eqb_spec x c) as [->|Nx].
  - split; [discriminate|]. intros [= E]. now destruct (N' s).
  - split; [discriminate|]. intros E. apply (linv_holder _ _ I) in E. congruence.
  - rewrite (linv_holder _ _ I), T. split; intros [= E]; [congruence | now destruct (N' s')].
  - apply (linv_holder _ _ I).
Qed.

Lemma linv_step ids l m l' : linv ids l -> lstep l m = Some l' -> linv (ids_after ids m) l'.
Proof.
  intros I. destruct m as [c id b|c n b|c|c|c|c n b|c]; cbn [lstep ids_after].
  - destruct (task l c) as [|] eqn:T; [discriminate|]. intros [= <-]. now apply linv_connect.
  - destruct (task l c) as [[| |s k|s|s| |]|] eqn:T; try discriminate.
    + destruct k; [|discriminate]. intros [= <-].
      apply (linv_move ids l c (Works s 0)); auto; try discriminate; intros;
        [eapply (keep_manager ids l c)|eapply (keep_holder ids l c)]; eauto; discriminate.
    + intros [= <-].
      apply (linv_move ids l c (Listens s)); auto; try discriminate; intros;
        [eapply (keep_manager ids l c)|eapply (drop_holder ids l c)]; eauto; discriminate.
    + intros [= <-].
      apply (linv_move ids l c (Idles s)); auto; try discriminate; intros;
        [eapply (keep_manager ids l c)|eapply (keep_holder ids l c)]; eauto; discriminate.
  - destruct (task l c) as [[| |s k|s|s| |]|] eqn:T; try discriminate.
    + destruct k; [|discriminate]. intros [= <-].
      apply (linv_move ids l c (Works s 0)); auto; try discriminate; intros;
        [eapply (keep_manager ids l c)|eapply (keep_holder ids l c)]; eauto; discriminate.
    + intros [= <-].
      apply (linv_move ids l c (Listens s)); auto; try discriminate; intros;
        [eapply (keep_manager ids l c)|eapply (drop_holder ids l c)]; eauto; discriminate.
    + intros [= <-].
      apply (linv_move ids l c (Idles s)); auto; try discriminate; intros;
        [eapply (keep_manager ids l c)|eapply (keep_holder ids l c)]; eauto; discriminate.
  - destruct (task l c) as [[id b| | | | | |]|] eqn:T; try discriminate.
    destruct (lk_manager l) eqn:M; [discriminate|]. cbn [set_manager_lock lk_sessions].
    destruct (if b then None else lk_sessions l id) as [s|] eqn:G; intros [= <-].
    + destruct b; [discriminate|]. eapply linv_take_old; eauto.
    + eapply linv_take_new; eauto.
  - destruct (task l c) as [[|s k|s k|s|s|s k|]|] eqn:T; try discriminate.
    + destruct k as [|k]; [discriminate|]. destruct (free s l); [|discriminate]. intros [= <-].
      apply (linv_move ids l c (Starts s (S k))); auto; try discriminate; intros.
      * rewrite (linv_manager _ _ I). unfold task_is. destruct (Nat.eqb_spec x c) as [->|N]; [|reflexivity].
        rewrite T. split; eauto.
      * eapply (keep_holder ids l c); eauto; discriminate.
    + destruct k as [|k]; [discriminate|]. destruct (free s l); [|discriminate]. intros [= <-].
      apply (linv_move ids l c (Works s (S k))); auto; try discriminate; intros;
        [eapply (keep_manager ids l c)|eapply (keep_holder ids l c)]; eauto; discriminate.
    + destruct k as [|k]; [|destruct (free s l); [|discriminate]]; intros [= <-];
      (eapply (linv_move ids l c); [eauto | eauto | cbn; auto | discriminate | |]; intros;
        [eapply (keep_manager ids l c)|eapply (keep_holder ids l c)]; eauto; discriminate).
  - destruct (task l c) as [[|s k| | | | |]|] eqn:T; try discriminate. destruct k; [|discriminate].
    destruct (n <=? 2)%nat; [|discriminate]. intros [= <-].
    apply (linv_move ids l c (Starts s 0)); auto; try discriminate; intros.
    + unfold task_is. destruct (Nat.eqb_spec x c) as [->|N].
      * split; [discriminate|]. intros (? & ? & E); discriminate.
      * split; [discriminate|]. intros E. apply (linv_manager _ _ I) in E.
        assert (lk_manager l = Some c) by (apply (linv_manager _ _ I); eauto). congruence.
    + eapply (keep_holder ids l c); eauto; discriminate.
  - destruct (task l c) as [[| |s k| | | |]|] eqn:T; try discriminate. destruct k; [|discriminate].
    unfold free. destruct (lk_holder l s) as [|] eqn:H; [discriminate|]. cbn [is_some negb].
    destruct (lk_subscribed l s); intros [= <-].
    + apply (linv_move ids l c (Works s 0)); auto; try discriminate; intros.
      * eapply (keep_manager ids l c); eauto; discriminate.
      * unfold task_is, upd. destruct (Nat.eqb_spec s0 s) as [->|N]; destruct (Nat.eqb_spec x c) as [->|Nx].
        -- split; reflexivity.
        -- split; [congruence|]. intros E. apply (linv_holder _ _ I) in E. congruence.
        -- split; [|congruence]. intros E. apply (linv_holder _ _ I) in E. congruence.
        -- apply (linv_holder _ _ I).
    + apply (linv_move ids l c (Works s 0)); auto; try discriminate; intros;
        [eapply (keep_manager ids l c)|eapply (keep_holder ids l c)]; eauto; discriminate.
Qed.

Definition ids_run (ms : list move) (ids : nat -> option nat) : nat -> option nat := fold_left ids_after ms ids.
Lemma linv_run ms : forall ids l l', linv ids l -> lrun ms l = Some l' -> linv (ids_run ms ids) l'.
Proof.
  induction ms as [|m ms IH]; intros ids l l' I R; cbn in R.
  - injection R as <-. exact I.
  - destruct (lstep l m) as [l1|] eqn:E; [|discriminate]. cbn. eapply IH; [|exact R]. eapply linv_step; eauto.
Qed.
Lemma lrun_app ms ms' : forall l, lrun (ms ++ ms') l = match lrun ms l with Some l => lrun ms' l | None => None end.
Proof. induction ms as [|m ms IH]; intros l; cbn; [reflexivity|]. destruct (lstep l m); auto. Qed.
