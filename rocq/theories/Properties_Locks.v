(** C49: one client cannot keep another from connecting. The property is false: see
    C49_refuted. What holds is that only a second connection with an identifier in use can
    block the broker. *)
From Verif Require Import Base Maps TreeFacts SessionFacts Locks LocksFacts.
From Coq Require Import Lia.

(** ** Specification *)
(** Moves the broker makes by itself. *)
Definition internal (m : move) : Prop :=
  match m with MTake _ | MPass _ | MStarted _ _ _ | MListen _ => True | _ => False end.
(** The broker makes no move until something comes from outside. *)
Definition quiet (l : locks) : Prop := forall m, internal m -> lstep l m = None.
(** [c] sent a CONNECT and has not been sent the CONNACK: it is written within the third
    session lock from the end of start_session (session_manager.rs 150-163). *)
Definition unanswered (l : locks) (c : nat) : Prop :=
  match task l c with Some (Wants _ _) => True | Some (Starts _ n) => (3 <= n)%nat | _ => False end.
(** [c] is answered and its connection has not ended. *)
Definition connected (l : locks) (c : nat) : Prop :=
  match task l c with Some (Works _ _) | Some (Listens _) | Some (Idles _) => True | _ => False end.
Definition asked (ms : list move) (c id : nat) : Prop := exists clean, In (MConnect c id clean) ms.
(** Moves of the client of [c], and messages for it. *)
Definition concerns (c : nat) (m : move) : Prop :=
  match m with MInput c' _ _ | MOver c' => c' = c | _ => False end.
(** No identifier is used by two connections that have not both ended. *)
Definition exclusive (ms : list move) (l : locks) : Prop :=
  forall a b id, asked ms a id -> asked ms b id -> a <> b -> task l a = Some Gone \/ task l b = Some Gone.

(** ** Proofs *)
Lemma ids_asked ms : forall ids c id, ids_run ms ids c = Some id -> ids c = Some id \/ asked ms c id.
Proof.
  induction ms as [|m ms IH]; intros ids c id E; cbn in E; [now left|].
  destruct (IH _ _ _ E) as [E1|(b & H)]; [|right; exists b; now right].
  destruct m as [c' id' b| | | | | |]; cbn in E1; auto.
  unfold upd in E1. destruct (Nat.eqb_spec c c') as [->|N]; [|now left].
  injection E1 as ->. right. exists b. now left.
Qed.
Lemma run_asked ms c id : ids_run ms (fun _ => None) c = Some id -> asked ms c id.
Proof. intros E. now destruct (ids_asked _ _ _ _ E). Qed.
Lemma free_or s l : free s l = true \/ exists a, lk_holder l s = Some a.
Proof. unfold free. destruct (lk_holder l s); [right; eauto | now left]. Qed.

(** The task that holds the manager's lock can go on unless another connection with its
    identifier is listening. *)
Lemma holder_moves ms l b s n :
  lrun ms locks_new = Some l -> task l b = Some (Starts s n) ->
  (exists m l', (m = MPass b \/ m = MStarted b 0 false) /\ lstep l m = Some l') \/
  (exists a id, a <> b /\ asked ms a id /\ asked ms b id /\ task l a = Some (Listens s)).
Proof.
  intros R T. pose proof (linv_run ms _ _ _ linv_new R) as I.
  destruct n as [|n].
  - left. exists (MStarted b 0 false). eexists. split; [now right|]. cbn [lstep]. rewrite T. reflexivity.
  - destruct (free_or s l) as [F|(a & H)].
    + left. exists (MPass b). eexists. split; [now left|]. cbn [lstep]. rewrite T, F. reflexivity.
    + right. apply (linv_holder _ _ I) in H.
      assert (N : a <> b) by congruence.
      pose proof (linv_same _ _ I _ _ _ _ s H T eq_refl eq_refl) as E.
      pose proof (linv_has _ _ I _ _ T) as Q.
      destruct (ids_run ms (fun _ => None) b) as [id|] eqn:Eb; [|congruence].
      exists a, id. repeat split; auto; now apply run_asked.
Qed.
Lemma unanswered_moves ms l c :
  lrun ms locks_new = Some l -> unanswered l c ->
  (exists b m l', (b = c \/ lk_manager l = Some b) /\ (m = MTake b \/ m = MPass b \/ m = MStarted b 0 false) /\ lstep l m = Some l') \/
  (exists a b s n id, (b = c \/ lk_manager l = Some b) /\ a <> b /\ asked ms a id /\ asked ms b id /\ task l a = Some (Listens s) /\ task l b = Some (Starts s n)).
Proof.
  intros R U. pose proof (linv_run ms _ _ _ linv_new R) as I. unfold unanswered in U.
  destruct (task l c) as [[id k|s n| | | | |]|] eqn:T; try contradiction.
  - destruct (lk_manager l) as [b|] eqn:M.
    + pose proof M as M'. apply (linv_manager _ _ I) in M as (s & n & Tb).
      destruct (holder_moves _ _ _ _ _ R Tb) as [(m & l' & [->| ->] & S)|(a & i & ? & ? & ? & ?)].
      * left. exists b, (MPass b), l'. auto.
      * left. exists b, (MStarted b 0 false), l'. auto.
      * right. exists a, b, s, n, i. auto 10.
    + left. exists c, (MTake c). cbn [lstep]. rewrite T, M. cbn [set_manager_lock lk_sessions].
      destruct (if k then None else lk_sessions l id); eexists; eauto.
  - destruct (holder_moves _ _ _ _ _ R T) as [(m & l' & [->| ->] & S)|(a & i & ? & ? & ? & ?)].
    + left. exists c, (MPass c), l'. auto.
    + left. exists c, (MStarted c 0 false), l'. auto.
    + right. exists a, c, s, n, i. auto 10.
Qed.

(** How many more moves the broker makes by itself, at most. *)
Definition weight1 (p : phase) : nat :=
  match p with Wants _ _ => 12 | Starts _ n => 5 + n | Works _ n => 1 + n | Ends _ n => 1 + n | _ => 0 end.
Definition weight (l : locks) : nat := list_sum (map (fun e => weight1 (snd e)) (lk_tasks l)).

(** ** C49 *)
(** When the broker has done all it can and a CONNECT is still unanswered, then a connection is
    being opened whose identifier is also that of another connection, and that one is
    answered, not ended, and waiting for a message. *)
Theorem C49_only_twins_block :
  forall ms l c, lrun ms locks_new = Some l -> quiet l -> unanswered l c ->
  exists a b id, a <> b /\ asked ms a id /\ asked ms b id /\ connected l a /\ task l b <> Some Gone /\ ~ connected l b.
Proof.
  intros ms l c R Q U. destruct (unanswered_moves ms l c R U) as [(b & m & l' & _ & M & S)|(a & b & s & n & id & _ & N & A & B & Ta & Tb)].
  - exfalso. assert (E : lstep l m = None) by (apply Q; destruct M as [->|[->| ->]]; exact Logic.I). congruence.
  - exists a, b, id. unfold connected. rewrite Ta, Tb. repeat split; auto; congruence.
Qed.
Print Assumptions C49_only_twins_block.

(** Connection [d] subscribed, or its subscriptions were restored. *)
Definition subscribes (ms : list move) (d : nat) : Prop := exists n, In (MInput d n true) ms \/ In (MStarted d n true) ms.
Definition sub_inv (ms : list move) (l : locks) : Prop :=
  forall s, (lk_subscribed l s = true \/ exists c, task l c = Some (Listens s)) ->
  exists d id, subscribes ms d /\ ids_run ms (fun _ => None) d = Some id /\
    (forall c p, task l c = Some p -> session_of p = Some s -> ids_run ms (fun _ => None) c = Some id) /\
    (forall id', lk_sessions l id' = Some s -> id' = id).
Lemma subscribes_more ms m d : subscribes ms d -> subscribes (ms ++ [m]) d.
Proof. intros (n & [H|H]); exists n; [left|right]; apply in_or_app; auto. Qed.
Lemma ids_run_app ms m ids : ids_run (ms ++ [m]) ids = ids_after (ids_run ms ids) m.
Proof. unfold ids_run. now rewrite fold_left_app. Qed.
(** A task goes on with its session [z], which is as subscribed as [b] says. *)
Lemma sub_inv_move ms m l c p p' z h mg b :
  linv (ids_run ms (fun _ => None)) l -> sub_inv ms l -> task l c = Some p -> session_of p = Some z -> session_of p' = Some z \/ session_of p' = None ->
  ids_after (ids_run ms (fun _ => None)) m = ids_run ms (fun _ => None) ->
  (b = true -> lk_subscribed l z = true \/ subscribes (ms ++ [m]) c) ->
  (p' = Listens z -> lk_subscribed l z = true) ->
  sub_inv (ms ++ [m]) (set_task c p' (Mk_locks mg h (upd (lk_subscribed l) z b) (lk_sessions l) (lk_next l) (lk_tasks l))).
Proof.
  intros I H Tc Sp Sp' Ei Hb Hl s Hs. unfold sub_inv in H. rewrite ids_run_app, Ei. set (ids := ids_run ms (fun _ => None)) in *.
  assert (T : forall x q, task (set_task c p' (Mk_locks mg h (upd (lk_subscribed l) z b) (lk_sessions l) (lk_next l) (lk_tasks l))) x = Some q ->
    x = c /\ q = p' \/ x <> c /\ task l x = Some q).
  { intros x q. rewrite task_set. destruct (Nat.eqb_spec x c) as [->|N]; [intros [= <-]; now left|]. right. split; auto. }
  assert (K : lk_subscribed l s = true \/ (exists c, task l c = Some (Listens s)) \/ (s = z /\ subscribes (ms ++ [m]) c)).
  { destruct Hs as [Hs|(x & Hs)].
    - unfold set_task in Hs. cbn [lk_subscribed] in Hs. destruct (Nat.eq_dec s z) as [->|N]; [rewrite upd_same in Hs | rewrite upd_other in Hs by exact N; now left].
      destruct (Hb Hs); auto.
    - destruct (T _ _ Hs) as [(-> & E)|(_ & E)]; [|right; left; eauto].
      rewrite <- E in Sp'. cbn in Sp'. destruct Sp' as [Sp'|Sp']; [|discriminate Sp']. injection Sp' as ->. left. now apply Hl. }
  assert (Q : forall x q, task (set_task c p' (Mk_locks mg h (upd (lk_subscribed l) z b) (lk_sessions l) (lk_next l) (lk_tasks l))) x = Some q ->
    session_of q = Some s -> exists q', task l x = Some q' /\ session_of q' = Some s).
  { intros x q Hx Hq. destruct (T _ _ Hx) as [(-> & ->)|(_ & E)]; [|eauto]. exists p. split; [exact Tc|]. destruct Sp'; congruence. }
  assert (O : lk_subscribed l s = true \/ (exists c, task l c = Some (Listens s)) \/ (s = z /\ subscribes (ms ++ [m]) c)) by exact K.
  clear K. rewrite <- or_assoc in O. destruct O as [O|(-> & Hc)].
  - destruct (H s O) as (d & id & H1 & H2 & H3 & H4). exists d, id. split; [now apply subscribes_more|]. split; [exact H2|].
    split; [|exact H4]. intros x q Hx Hq. destruct (Q _ _ Hx Hq) as (q' & H5 & H6). eauto.
  - pose proof (linv_has _ _ I _ _ Tc) as Hi. destruct (ids c) as [id|] eqn:Ec; [|congruence]. exists c, id. split; [exact Hc|]. split; [exact Ec|]. split.
    + intros x q Hx Hq. destruct (Q _ _ Hx Hq) as (q' & H5 & H6). rewrite <- Ec. eapply (linv_same _ _ I); eauto.
    + intros id' Hid. pose proof (linv_map_id _ _ I _ _ _ _ Hid Tc Sp). congruence.
Qed.
Lemma upd_id {A} (f : nat -> A) z s : upd f z (f z) s = f s.
Proof. unfold upd. destruct (Nat.eqb_spec s z) as [->|]; reflexivity. Qed.
Lemma sub_inv_same ms m l c p p' z h mg :
  linv (ids_run ms (fun _ => None)) l -> sub_inv ms l -> task l c = Some p -> session_of p = Some z -> session_of p' = Some z \/ session_of p' = None ->
  ids_after (ids_run ms (fun _ => None)) m = ids_run ms (fun _ => None) ->
  (p' = Listens z -> lk_subscribed l z = true) ->
  sub_inv (ms ++ [m]) (set_task c p' (Mk_locks mg h (lk_subscribed l) (lk_sessions l) (lk_next l) (lk_tasks l))).
Proof.
  intros I H T Sp Sp' Ei Hl s Hs.
  destruct (sub_inv_move ms m l c p p' z h mg (lk_subscribed l z) I H T Sp Sp' Ei ltac:(auto) Hl s) as (d & id & H1 & H2 & H3 & H4).
  { cbn [set_task lk_subscribed] in *. rewrite upd_id. exact Hs. }
  exists d, id. auto.
Qed.
Lemma sub_inv_step ms m l l' :
  linv (ids_run ms (fun _ => None)) l -> sub_inv ms l -> lstep l m = Some l' -> sub_inv (ms ++ [m]) l'.
Proof.
  intros I H S. set (ids := ids_run ms (fun _ => None)) in *.
  destruct m as [c id k|c n k|c|c|c|c n k|c]; cbn [lstep] in S.
  - destruct (task l c) eqn:T; [discriminate S|]. injection S as <-. intros s Hs. rewrite ids_run_app. fold ids. cbn [ids_after].
    destruct (H s) as (d & i & H1 & H2 & H3 & H4).
    { destruct Hs as [Hs|(x & Hs)]; [now left|]. right. exists x. rewrite task_set in Hs. destruct (Nat.eqb_spec x c); [discriminate|exact Hs]. }
    fold ids in H2, H3.
    assert (d <> c) by (intros ->; rewrite (linv_known _ _ I _ T) in H2; discriminate). exists d, i. split; [now apply subscribes_more|].
    split; [now rewrite upd_other by auto|]. split; [|exact H4]. intros x q Hx Hq. rewrite task_set in Hx.
    destruct (Nat.eqb_spec x c) as [->|N]; [injection Hx as <-; discriminate Hq|]. rewrite upd_other by auto. eauto.
  - assert (K : exists z p, task l c = Some p /\ session_of p = Some z /\ exists h, l' = set_task c (Works z n) (Mk_locks (lk_manager l) h (upd (lk_subscribed l) z k) (lk_sessions l) (lk_next l) (lk_tasks l))).
    { destruct (task l c) as [[| |z j|z|z| |]|] eqn:T; try discriminate S; try (destruct j; [|discriminate S]); injection S as <-; exists z; eexists;
        (split; [reflexivity|]); (split; [reflexivity|]); eexists; reflexivity. }
    destruct K as (z & p & T & Sp & h & ->). eapply sub_inv_move; [exact I|exact H|exact T|exact Sp|now left|reflexivity| |discriminate].
    intros ->. right. exists n. left. apply in_or_app. right. now left.
  - assert (K : exists z p, task l c = Some p /\ session_of p = Some z /\ exists h, l' = set_task c (Ends z 2) (Mk_locks (lk_manager l) h (lk_subscribed l) (lk_sessions l) (lk_next l) (lk_tasks l))).
    { destruct (task l c) as [[| |z j|z|z| |]|] eqn:T; try discriminate S; try (destruct j; [|discriminate S]); injection S as <-; exists z; eexists;
        (split; [reflexivity|]); (split; [reflexivity|]); eexists; reflexivity. }
    destruct K as (z & p & T & Sp & h & ->). eapply sub_inv_same; [exact I|exact H|exact T|exact Sp|now left|reflexivity|discriminate].
  - destruct (task l c) as [[id k| | | | | |]|] eqn:T; try discriminate S. destruct (lk_manager l); [discriminate S|].
    cbn [set_manager_lock lk_sessions] in S. destruct (if k then None else lk_sessions l id) as [z|] eqn:Ez; injection S as <-.
    + assert (Em : lk_sessions l id = Some z) by (destruct k; [discriminate|exact Ez]).
      intros s Hs. rewrite ids_run_app. cbn [ids_after]. fold ids. destruct (H s) as (d & i & H1 & H2 & H3 & H4).
      { destruct Hs as [Hs|(x & Hs)]; [now left|]. right. exists x. rewrite task_set in Hs. destruct (Nat.eqb_spec x c); [discriminate|exact Hs]. }
      exists d, i. split; [now apply subscribes_more|]. split; [exact H2|]. split; [|exact H4]. intros x q Hx Hq. rewrite task_set in Hx.
      destruct (Nat.eqb_spec x c) as [->|N]; [|eauto]. injection Hx as <-. injection Hq as ->. rewrite (linv_wants _ _ I _ _ _ T). f_equal. now apply H4.
    + intros s Hs. rewrite ids_run_app. cbn [ids_after]. fold ids.
      assert (Hs' : (lk_subscribed l s = true /\ s <> lk_next l) \/ exists x, task l x = Some (Listens s)).
      { destruct Hs as [Hs|(x & Hs)].
        - cbn in Hs. destruct (Nat.eq_dec s (lk_next l)) as [->|N]; [rewrite upd_same in Hs; discriminate|rewrite upd_other in Hs by exact N; auto].
        - right. exists x. rewrite task_set in Hs. destruct (Nat.eqb_spec x c); [discriminate|exact Hs]. }
      assert (N : s <> lk_next l).
      { destruct Hs' as [(_ & N)|(x & Hx)]; [exact N|]. pose proof (linv_old _ _ I _ _ s Hx eq_refl). lia. }
      destruct (H s) as (d & i & H1 & H2 & H3 & H4); [tauto|]. exists d, i. split; [now apply subscribes_more|]. split; [exact H2|]. split.
      * intros x q Hx Hq. rewrite task_set in Hx. destruct (Nat.eqb_spec x c) as [->|Nx]; [|eauto]. injection Hx as <-. injection Hq as E. congruence.
      * intros id' Hid. cbn in Hid. unfold upd in Hid. destruct (Nat.eqb id' id); [injection Hid; congruence|]. now apply H4.
  - destruct (task l c) as [[|z j|z j|z|z|z j|]|] eqn:T; try discriminate S; destruct j as [|j]; try discriminate S;
      try (destruct (free z l); [|discriminate S]); injection S as <-; destruct l; (eapply sub_inv_same; [exact I|exact H|exact T|reflexivity| | |]; cbn; auto; try discriminate).
  - destruct (task l c) as [[|z j| | | | |]|] eqn:T; try discriminate S. destruct j; [|discriminate S]. destruct (n <=? 2)%nat; [|discriminate S].
    injection S as <-. apply (sub_inv_move ms (MStarted c n k) l c _ (Works z n) z (lk_holder l) None (k || lk_subscribed l z) I H T); [reflexivity|now left|reflexivity| |discriminate].
    intros E. apply orb_prop in E as [->|E]; [|now left]. right. exists n. right. apply in_or_app. right. now left.
  - destruct (task l c) as [[| |z j| | | |]|] eqn:T; try discriminate S. destruct j; [|discriminate S]. destruct (free z l); [|discriminate S].
    destruct (lk_subscribed l z) eqn:E; injection S as <-; destruct l; (eapply sub_inv_same; [exact I|exact H|exact T|reflexivity| | |]; cbn; auto; try discriminate).
Qed.
Lemma sub_inv_run ms l : lrun ms locks_new = Some l -> sub_inv ms l.
Proof.
  revert l. induction ms as [|m ms IH] using rev_ind; intros l R.
  - injection R as <-. intros s [Hs|(c & Hs)]; discriminate Hs.
  - rewrite lrun_app in R. destruct (lrun ms locks_new) as [l0|] eqn:R0; [|discriminate R]. cbn in R.
    destruct (lstep l0 m) as [l1|] eqn:S; [|discriminate R]. injection R as <-. eapply sub_inv_step; eauto. exact (linv_run _ _ _ _ linv_new R0).
Qed.
(** If a CONNECT stays unanswered, a client has subscribed under the identifier that is used twice. *)
Theorem C49_only_subscribers_block :
  forall ms l c, lrun ms locks_new = Some l -> quiet l -> unanswered l c ->
  exists a b d id, a <> b /\ asked ms a id /\ asked ms b id /\ connected l a /\ ~ connected l b /\ asked ms d id /\ subscribes ms d.
Proof.
  intros ms l c R Q U. destruct (unanswered_moves ms l c R U) as [(b & m & l' & _ & M & S)|(a & b & s & n & id & _ & N & A & B & Ta & Tb)].
  - exfalso. assert (E : lstep l m = None) by (apply Q; destruct M as [->|[->| ->]]; exact Logic.I). congruence.
  - destruct (sub_inv_run _ _ R s) as (d & i & H1 & H2 & H3 & _); [right; eauto|].
    pose proof (H3 _ _ Ta eq_refl) as Ia. pose proof (H3 _ _ Tb eq_refl) as Ib.
    exists a, b, d, i. unfold connected. rewrite Ta, Tb. repeat match goal with |- _ /\ _ => split end; auto; now apply run_asked.
Qed.
Print Assumptions C49_only_subscribers_block.
(** In particular clients that only publish cannot block each other, whatever identifiers they use. *)
Theorem C49_publishers_answered :
  forall ms l, lrun ms locks_new = Some l -> (forall d, ~ subscribes ms d) -> quiet l -> forall c, ~ unanswered l c.
Proof. intros ms l R N Q c U. destruct (C49_only_subscribers_block _ _ _ R Q U) as (a & b & d & id & _ & _ & _ & _ & _ & _ & H). exact (N d H). Qed.
Print Assumptions C49_publishers_answered.

Lemma weight_set c p p' l : task l c = Some p -> (weight (set_task c p' l) + weight1 p = weight l + weight1 p')%nat.
Proof.
  unfold weight, task, set_task. cbn [lk_tasks]. generalize (lk_tasks l). clear l.
  induction l as [|[k q] m IH]; cbn [aget aput]; [discriminate|].
  destruct (Nat.eqb c k) eqn:E.
  - intros [= ->]. cbn. lia.
  - intros H. specialize (IH H). unfold list_sum in *; cbn [map fold_right snd] in *. lia.
Qed.
(** [weight] looks at the tasks only. *)
Ltac same_weight l :=
  match goal with W : (_ + _ = weight ?l' + _)%nat |- _ => change (weight l') with (weight l) in W end; lia.
Lemma weight_step l m l' : internal m -> lstep l m = Some l' -> (weight l' < weight l)%nat.
Proof.
  destruct m as [c id b|c n b|c|c|c|c n b|c]; cbn [internal lstep]; try contradiction; intros _ S.
  - destruct (task l c) as [[id b| | | | | |]|] eqn:T; try discriminate S.
    destruct (lk_manager l); [discriminate S|]. cbn [set_manager_lock lk_sessions] in S.
    destruct (if b then None else lk_sessions l id) as [s|]; injection S as <-.
    + pose proof (weight_set c _ (Starts s 4) (set_manager_lock (Some c) l) T) as W. cbn [weight1] in W. same_weight l.
    + pose proof (weight_set c _ (Starts (lk_next l) 3) (new_session id (set_manager_lock (Some c) l)) T) as W.
      cbn [weight1] in W. same_weight l.
  - destruct (task l c) as [[|s k|s k|s|s|s k|]|] eqn:T; try discriminate S; destruct k as [|k]; try discriminate S;
      try (destruct (free s l); [|discriminate S]); injection S as <-;
      match goal with |- context [set_task c ?p l] => pose proof (weight_set c _ p l T) as W end; cbn [weight1] in W; lia.
  - destruct (task l c) as [[|s k| | | | |]|] eqn:T; try discriminate S. destruct k; [|discriminate S].
    destruct (Nat.leb_spec n 2) as [Hn|]; [|discriminate S]. injection S as <-.
    pose proof (weight_set c _ (Works s n) (set_subscribed s (orb b (lk_subscribed l s)) (set_manager_lock None l)) T) as W.
    cbn [weight1] in W. same_weight l.
  - destruct (task l c) as [[| |s k| | | |]|] eqn:T; try discriminate S. destruct k; [|discriminate S].
    destruct (free s l); [|discriminate S]. destruct (lk_subscribed l s); injection S as <-.
    + pose proof (weight_set c _ (Listens s) (set_holder s (Some c) l) T) as W. cbn [weight1] in W. same_weight l.
    + pose proof (weight_set c _ (Idles s) l T) as W. cbn [weight1] in W. lia.
Qed.
(** The broker cannot be busy with itself for ever. *)
Theorem C49_comes_to_rest :
  forall l, exists bound, forall ms l', Forall internal ms -> lrun ms l = Some l' -> (length ms <= bound)%nat.
Proof.
  intros l. exists (weight l). intros ms. revert l. induction ms as [|m ms IH]; intros l l' F R; [cbn; lia|].
  inversion F as [|m0 ms0 Fm Fms]; subst. cbn in R. destruct (lstep l m) as [l1|] eqn:S; [|discriminate R].
  pose proof (weight_step _ _ _ Fm S). pose proof (IH _ _ Fms R). cbn. lia.
Qed.
Print Assumptions C49_comes_to_rest.

Lemma gone_stays l m l' c : lstep l m = Some l' -> task l c = Some Gone -> task l' c = Some Gone.
Proof.
  intros S T.
  destruct m; cbn [lstep] in S;
    repeat match type of S with
    | context [match ?x with _ => _ end] => destruct x eqn:?; try discriminate S
    end; injection S as <-; rewrite task_set;
    match goal with |- context [Nat.eqb c ?y] => destruct (Nat.eqb_spec c y) as [->|N]; [congruence | exact T] end.
Qed.
Lemma internal_asked ms ms' c id : Forall internal ms' -> asked (ms ++ ms') c id -> asked ms c id.
Proof.
  intros F (b & H). apply in_app_or in H as [H|H]; [now exists b|].
  rewrite Forall_forall in F. now apply F in H.
Qed.
Lemma exclusive_internal ms ms' l l' : Forall internal ms' -> lrun ms' l = Some l' -> exclusive ms l -> exclusive (ms ++ ms') l'.
Proof.
  intros F R E a b id A B N. pose proof (internal_asked _ _ _ _ F A) as A'. pose proof (internal_asked _ _ _ _ F B) as B'.
  assert (G : forall x, task l x = Some Gone -> task l' x = Some Gone).
  { intros x. clear - R. revert l R. induction ms' as [|m ms' IH]; intros l R T; cbn in R; [congruence|].
    destruct (lstep l m) as [l1|] eqn:S; [|discriminate R]. apply (IH l1); auto. eapply gone_stays; eauto. }
  destruct (E a b id A' B' N); auto.
Qed.

(** If no two connections use the same identifier at a time, the broker answers every CONNECT
    without help from any client. Missing for the full property: connections that share an
    identifier, where it is false. *)
Theorem C49_answered_partial :
  forall ms l, lrun ms locks_new = Some l -> exclusive ms l ->
  forall ms' l', Forall internal ms' -> lrun ms' l = Some l' -> quiet l' -> forall c, ~ unanswered l' c.
Proof.
  intros ms l R E ms' l' F R' Q c U.
  pose proof (exclusive_internal _ _ _ _ F R' E) as E'.
  assert (R2 : lrun (ms ++ ms') locks_new = Some l') by now rewrite lrun_app, R.
  destruct (C49_only_twins_block _ _ _ R2 Q U) as (a & b & id & N & A & B & Ca & Nb & _).
  destruct (E' a b id A B N) as [G|G]; [|contradiction]. unfold connected in Ca. now rewrite G in Ca.
Qed.
Print Assumptions C49_answered_partial.

(** In every such state, however busy the others are, the unanswered connection or the one that
    holds the manager's lock can move at once. *)
Theorem C49_never_waits_partial :
  forall ms l c, lrun ms locks_new = Some l -> exclusive ms l -> unanswered l c ->
  exists b m l', (b = c \/ lk_manager l = Some b) /\ (m = MTake b \/ m = MPass b \/ m = MStarted b 0 false) /\ lstep l m = Some l'.
Proof.
  intros ms l c R E U. destruct (unanswered_moves ms l c R U) as [H|(a & b & s & n & id & _ & N & A & B & Ta & Tb)]; [exact H|].
  destruct (E a b id A B N); congruence.
Qed.
Print Assumptions C49_never_waits_partial.

(** [a] waits for a message, with the lock of its session; [b], opened with the same identifier,
    waits for that lock with the manager's lock. Then whatever happens, as long as the client of
    [a] sends nothing, its connection does not end and no message comes for it, nobody gets answered. *)
Lemma blocked_run ms : forall ids l l' a b s n,
  linv ids l -> task l a = Some (Listens s) -> task l b = Some (Starts s (S n)) ->
  Forall (fun m => ~ concerns a m) ms -> lrun ms l = Some l' ->
  forall c, unanswered l c -> unanswered l' c.
Proof.
  induction ms as [|m ms IH]; intros ids l l' a b s n I Ta Tb F R c U; cbn in R; [now injection R as <-|].
  inversion F as [|m0 ms0 Fm Fms]; subst. destruct (lstep l m) as [l1|] eqn:S; [|discriminate R].
  assert (Ha : lk_holder l s = Some a) by now apply (linv_holder _ _ I).
  assert (Mb : lk_manager l = Some b) by (apply (linv_manager _ _ I); eauto).
  assert (Fs : free s l = false) by (unfold free; now rewrite Ha).
  assert (K : task l1 a = Some (Listens s) /\ task l1 b = Some (Starts s (Datatypes.S n)) /\ unanswered l1 c).
  { unfold unanswered in *.
    assert (O : forall x p, x <> a -> x <> b -> (x = c -> False) ->
      task (set_task x p l) a = Some (Listens s) /\ task (set_task x p l) b = Some (Starts s (Datatypes.S n)) /\
      match task (set_task x p l) c with Some (Wants _ _) => True | Some (Starts _ n) => (3 <= n)%nat | _ => False end).
    { intros x p Na Nb Nc. rewrite !task_set.
      destruct (Nat.eqb_spec a x); [congruence|]. destruct (Nat.eqb_spec b x); [congruence|].
      destruct (Nat.eqb_spec c x); [congruence|]. auto. }
    destruct m as [x id k|x k q|x|x|x|x k q|x]; cbn [lstep concerns] in S, Fm.
    - destruct (task l x) eqn:T; [discriminate S|]. injection S as <-. apply O; try congruence. intros ->. now rewrite T in U.
    - destruct (task l x) as [[| |z j|z|z| |]|] eqn:T; try discriminate S; try (destruct j; [|discriminate S]);
        injection S as <-; apply O; try congruence; intros ->; now rewrite T in U.
    - destruct (task l x) as [[| |z j|z|z| |]|] eqn:T; try discriminate S; try (destruct j; [|discriminate S]);
        injection S as <-; apply O; try congruence; intros ->; now rewrite T in U.
    - rewrite Mb in S. destruct (task l x) as [[]|]; discriminate S.
    - destruct (task l x) as [[|z j|z j|z|z|z j|]|] eqn:T; try discriminate S; destruct j as [|j]; try discriminate S.
      + (* only b has the manager's lock *)
        assert (Mx : lk_manager l = Some x) by (apply (linv_manager _ _ I); eauto).
        assert (x = b) by congruence. subst x. rewrite Tb in T. injection T as <- <-. rewrite Fs in S. discriminate S.
      + destruct (free z l); [|discriminate S]. injection S as <-. apply O; try congruence. intros ->. now rewrite T in U.
      + injection S as <-. apply O; try congruence. intros ->. now rewrite T in U.
      + destruct (free z l); [|discriminate S]. injection S as <-. apply O; try congruence. intros ->. now rewrite T in U.
    - destruct (task l x) as [[|z j| | | | |]|] eqn:T; try discriminate S. destruct j; [|discriminate S].
      assert (Mx : lk_manager l = Some x) by (apply (linv_manager _ _ I); eauto).
      assert (x = b) by congruence. subst x. congruence.
    - destruct (task l x) as [[| |z j| | | |]|] eqn:T; try discriminate S. destruct j; [|discriminate S].
      destruct (free z l); [|discriminate S]. destruct (lk_subscribed l z); injection S as <-; apply O; try congruence; intros ->; now rewrite T in U. }
  destruct K as (Ta' & Tb' & U'). eapply IH; [eapply linv_step; eauto | exact Ta' | exact Tb' | exact Fms | exact R | exact U'].
Qed.

Definition is_listening (l : locks) (c : nat) : bool := match task l c with Some (Listens _) => true | _ => false end.
(** Connection 0 (identifier 7) is open, has subscribed and is idle; connection 1 gives the same
    identifier, without clean start; connection 2 gives another. *)
Definition ex_jam : list move :=
  [ MConnect 0 7 true; MTake 0; MPass 0; MPass 0; MPass 0; MStarted 0 0 false; MInput 0 3 true; MPass 0; MPass 0; MPass 0; MListen 0;
    MConnect 1 7 false; MTake 1; MConnect 2 8 true ].

(** C49 is false: connection 2 stays unanswered, whatever it and every other connection does,
    until connection 0 hears of something. With keep-alive 0 that may be never. *)
Theorem C49_refuted :
  exists ms l a c id id', lrun ms locks_new = Some l /\ connected l a /\ asked ms a id /\ asked ms c id' /\ id <> id' /\ unanswered l c /\
  forall ms' l', Forall (fun m => ~ concerns a m) ms' -> lrun ms' l = Some l' -> unanswered l' c.
Proof.
  destruct (lrun ex_jam locks_new) as [l|] eqn:R; [|vm_compute in R; discriminate R].
  exists ex_jam, l, 0%nat, 2%nat, 7%nat, 8%nat.
  assert (T0 : task l 0 = Some (Listens 0)) by (vm_compute in R; injection R as <-; reflexivity).
  assert (T1 : task l 1 = Some (Starts 0 4)) by (vm_compute in R; injection R as <-; reflexivity).
  assert (T2 : task l 2 = Some (Wants 8 true)) by (vm_compute in R; injection R as <-; reflexivity).
  assert (U : unanswered l 2) by (unfold unanswered; now rewrite T2).
  split; [exact R|]. split; [unfold connected; now rewrite T0|].
  split; [exists true; cbn; auto|]. split; [exists true; cbn; auto 20|]. split; [discriminate|]. split; [exact U|].
  intros ms' l' F R'. eapply blocked_run; [exact (linv_run _ _ _ _ linv_new R) | exact T0 | exact T1 | exact F | exact R' | exact U].
Qed.
Print Assumptions C49_refuted.

(** ** Examples *)
Example ex_jam_quiet_for_2 : match lrun ex_jam locks_new with Some l => (lstep l (MTake 2), lstep l (MPass 1), is_listening l 0) | None => (None, None, false) end
  = (None, None, true).
Proof. vm_compute. reflexivity. Qed.
(** A message for connection 0 lets both in. *)
Example ex_jam_over :
  match lrun (ex_jam ++ [MInput 0 0 true; MPass 1; MPass 1; MPass 1; MPass 1; MStarted 1 0 false; MTake 2; MPass 2; MPass 2; MPass 2; MStarted 2 0 false]) locks_new with
  | Some l => map (fun c => task l c) [0; 1; 2]%nat = [Some (Works 0 0); Some (Works 0 0); Some (Works 1 0)]
  | None => False
  end.
Proof. vm_compute. reflexivity. Qed.
(** Two connections with identifiers of their own, the first idle and subscribed: hypotheses of
    C49_answered_partial, with a CONNECT still unanswered. *)
Definition ex_apart : list move :=
  [ MConnect 0 7 true; MTake 0; MPass 0; MPass 0; MPass 0; MStarted 0 0 false; MInput 0 3 true; MPass 0; MPass 0; MPass 0; MListen 0;
    MConnect 2 8 true ].
Example ex_apart_exclusive :
  exists l, lrun ex_apart locks_new = Some l /\ exclusive ex_apart l /\ unanswered l 2 /\ is_listening l 0 = true.
Proof.
  eexists. split; [vm_compute; reflexivity|]. split; [|split; [exact Logic.I | vm_compute; reflexivity]].
  intros a b id (p & A) (q & B) N. cbn in A, B.
  repeat (destruct A as [A|A]; [try discriminate A; injection A as <- <- <- |]); try contradiction;
    repeat (destruct B as [B|B]; [try discriminate B; try (injection B; intros; subst; congruence) |]); contradiction.
Qed.
(** Two publishers with the same identifier, both answered in the end. *)
Definition ex_twins : list move :=
  [ MConnect 0 7 false; MTake 0; MPass 0; MPass 0; MPass 0; MStarted 0 0 false; MInput 0 1 false; MPass 0; MListen 0;
    MConnect 1 7 false; MTake 1; MPass 1; MPass 1; MPass 1; MPass 1; MStarted 1 0 false; MListen 1 ].
Example ex_twins_ok : exists l, lrun ex_twins locks_new = Some l /\ (forall d, ~ subscribes ex_twins d) /\ quiet l
  /\ map (fun c => task l c) [0; 1]%nat = [Some (Idles 0); Some (Idles 0)].
Proof.
  eexists. split; [vm_compute; reflexivity|]. split; [|split; [|reflexivity]].
  - intros d (n & [H|H]); cbn in H; repeat (destruct H as [H|H]; [discriminate H|]); exact H.
  - intros [c id b|c n b|c|c|c|c n b|c] H; try contradiction H; destruct c as [|[|c]]; reflexivity.
Qed.
