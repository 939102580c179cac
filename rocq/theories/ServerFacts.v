(** Facts about the world: what a step can change. *)
From Verif Require Import Base Utf8 Codec SpecCodec Tac Maps CodecFacts Topic SpecTopic TopicFacts Property PacketProps Packets
  TopicTree TreeFacts Storage SpecStorage StorageFacts Broker SpecBroker BrokerFacts Auth Session Server SpecServer SessionFacts.

(** ** Well-formed worlds *)
Definition wf (w : world) : Prop :=
  (forall k i, aget bytes_eqb k (w_manager w) = Some i -> (i < length (w_heap w))%nat) /\
  (forall c i, aget Nat.eqb c (w_conns w) = Some i -> (i < length (w_heap w))%nat).

Lemma wf_new : wf world_new.
Proof. split; intros k i H; discriminate. Qed.
Lemma wf_restart w : wf (restart w).
Proof. split; intros k i H; discriminate. Qed.

Lemma wf_put i s w : wf w -> wf (put_session i s w).
Proof. intros [H1 H2]. split; simpl; intros k j; rewrite list_set_length; eauto. Qed.
Lemma wf_broker b w : wf w -> wf (set_broker b w).
Proof. intros H. exact H. Qed.
Lemma wf_store b w : wf w -> wf (set_store b w).
Proof. intros H. exact H. Qed.
Lemma wf_close c w : wf w -> wf (set_conns (adel Nat.eqb c (w_conns w)) w).
Proof.
  intros [H1 H2]. split; simpl; auto. intros d i. rewrite aget_adel by apply nateqb_spec.
  destruct (Nat.eqb d c); [discriminate|]. apply H2.
Qed.
Lemma wf_end c i w : wf w -> wf (end_connection c i w).
Proof.
  intros H. unfold end_connection. simpl.
  destruct (nth_error (w_heap w) i) as [s|]; [|apply wf_close, H].
  destruct (se_will s); [|apply wf_close, H].
  apply wf_store, wf_broker, wf_put, wf_close, H.
Qed.

(** The result of looking a session up: the heap is unchanged, and there is something to
    restore only if the manager does not know the identifier. *)
Lemma lookup_session_spec k w resume subs wl infl w1 :
  lookup_session k w = (resume, subs, wl, infl, w1) ->
  w_heap w1 = w_heap w /\ w_conns w1 = w_conns w /\ bk_tree (w_broker w1) = bk_tree (w_broker w)
  /\ ms_retained (w_store w1) = ms_retained (w_store w) /\ ms_inflight (w_store w1) = ms_inflight (w_store w)
  /\ (w_manager w1 = w_manager w \/ (cf_clean_start (c_flags k) = true /\
        w_manager w1 = adel bytes_eqb (cl_client_id (c_payload k)) (w_manager w)))
  /\ (resume = true <-> cf_clean_start (c_flags k) = false /\
        (aget bytes_eqb (cl_client_id (c_payload k)) (w_manager w) <> None
         \/ mem_load_session (cl_client_id (c_payload k)) (w_store w) <> None))
  /\ (aget bytes_eqb (cl_client_id (c_payload k)) (w_manager w1) <> None -> subs = [] /\ wl = None /\ infl = [])
  /\ (aget bytes_eqb (cl_client_id (c_payload k)) (w_manager w1) <> None <->
        cf_clean_start (c_flags k) = false /\ aget bytes_eqb (cl_client_id (c_payload k)) (w_manager w) <> None).
Proof.
  unfold lookup_session. destruct (cf_clean_start (c_flags k)) eqn:Ec.
  - intros H. injection H as <- <- <- <- <-. simpl. rewrite aget_del_same by apply beqb_spec.
    repeat split; auto; try discriminate; try tauto; intros [H _]; discriminate.
  - destruct (aget bytes_eqb (cl_client_id (c_payload k)) (w_manager w)) eqn:Em; simpl.
    + intros H. injection H as <- <- <- <- <-. rewrite Em. repeat split; auto; try tauto; try discriminate.
      left. discriminate.
    + destruct (mem_load_session (cl_client_id (c_payload k)) (w_store w)) as [st|] eqn:El;
        intros H; injection H as <- <- <- <- <-; rewrite Em;
        repeat split; auto; try tauto; try discriminate; try congruence; try (right; discriminate);
        try (intros [_ [H|H]]; congruence).
Qed.

(** Session [i] is either the one the manager had, reconnected, or a new one. *)
Lemma enter_session_spec k w i w1 : wf w -> enter_session k w = (i, w1) ->
  w_conns w1 = w_conns w /\ w_broker w1 = w_broker w /\
  (forall j, j <> i -> (j < length (w_heap w))%nat -> nth_error (w_heap w1) j = nth_error (w_heap w) j) /\
  ((exists s, aget bytes_eqb (cl_client_id (c_payload k)) (w_manager w) = Some i /\ nth_error (w_heap w) i = Some s
      /\ nth_error (w_heap w1) i = Some (set_connect_packet k s) /\ w_manager w1 = w_manager w
      /\ length (w_heap w1) = length (w_heap w))
   \/ (aget bytes_eqb (cl_client_id (c_payload k)) (w_manager w) = None /\ i = length (w_heap w)
      /\ nth_error (w_heap w1) i = Some (session_new k)
      /\ w_manager w1 = aput bytes_eqb (cl_client_id (c_payload k)) i (w_manager w)
      /\ length (w_heap w1) = S (length (w_heap w)))).
Proof.
  intros [Hm _]. unfold enter_session.
  destruct (aget bytes_eqb (cl_client_id (c_payload k)) (w_manager w)) as [j|] eqn:E.
  - specialize (Hm _ _ E). destruct (nth_error (w_heap w) j) as [s|] eqn:Es.
    + intros H. injection H as <- <-. repeat split; auto.
      * intros j' Hj _. apply put_other. exact Hj.
      * left. exists s. repeat split; auto; [eapply put_same; eauto | simpl; apply list_set_length].
    + apply nth_error_None in Es. lia.
  - intros H. injection H as <- <-. simpl. repeat split; auto.
    + intros j Hj Hlt. apply nth_error_app1. exact Hlt.
    + right. repeat split; auto.
      * rewrite nth_error_app2 by lia. rewrite Nat.sub_diag. reflexivity.
      * rewrite app_length. simpl. lia.
Qed.

(** The session a CONNECT enters, and the data to restore. *)
Inductive entered (k : connect_packet) (w : world) (i : nat) : list bytes -> option will -> list inflight -> session -> Prop :=
| en_old s : cf_clean_start (c_flags k) = false ->
    aget bytes_eqb (cl_client_id (c_payload k)) (w_manager w) = Some i ->
    nth_error (w_heap w) i = Some s ->
    entered k w i [] None [] (set_connect_packet k s)
| en_new subs wl infl : i = length (w_heap w) ->
    (cf_clean_start (c_flags k) = true \/ aget bytes_eqb (cl_client_id (c_payload k)) (w_manager w) = None) ->
    (cf_clean_start (c_flags k) = true -> subs = [] /\ wl = None /\ infl = []) ->
    (cf_clean_start (c_flags k) = false ->
       subs = match mem_load_session (cl_client_id (c_payload k)) (w_store w) with
              | Some st => ss_subscriptions st | None => [] end /\
       wl = match mem_load_session (cl_client_id (c_payload k)) (w_store w) with
            | Some st => mem_get_will (cl_client_id (c_payload k)) (w_store w) | None => None end /\
       infl = match mem_load_session (cl_client_id (c_payload k)) (w_store w) with
              | Some st => mem_get_all_inflight (cl_client_id (c_payload k)) (w_store w) | None => [] end) ->
    entered k w i subs wl infl (session_new k).

Definition resumes (k : connect_packet) (w : world) : bool :=
  negb (cf_clean_start (c_flags k)) &&
  (is_some (aget bytes_eqb (cl_client_id (c_payload k)) (w_manager w))
   || is_some (mem_load_session (cl_client_id (c_payload k)) (w_store w))).

(** The store after a CONNECT has been accepted. *)
Definition connect_store (k : connect_packet) (subs : list bytes) (s : session) (w : world) : mem_store :=
  let cid := cl_client_id (c_payload k) in
  let st := if cf_clean_start (c_flags k) then mem_delete_will cid (mem_delete_session cid (w_store w)) else w_store w in
  let st := mem_save_session (se_client_id s) (Mk_session_state (se_client_id s) subs false) st in
  match se_will s with Some x => mem_store_will (se_client_id s) x st | None => st end.

Lemma start_session_spec uuid ok k w ack r w1 : wf w ->
  start_session uuid ok k w = (ack, r, w1) ->
  exists i subs wl infl s, entered k w i subs wl infl s
    /\ ack = fst (begin uuid (resumes k w) s)
    /\ r = (if ok then Some (Mk_start_result i subs wl infl) else None)
    /\ nth_error (w_heap w1) i = Some (snd (begin uuid (resumes k w) s))
    /\ (forall j, j <> i -> (j < length (w_heap w))%nat -> nth_error (w_heap w1) j = nth_error (w_heap w) j)
    /\ length (w_heap w1) = Nat.max (length (w_heap w)) (S i)
    /\ w_manager w1 = aput bytes_eqb (cl_client_id (c_payload k)) i
         (if cf_clean_start (c_flags k) then adel bytes_eqb (cl_client_id (c_payload k)) (w_manager w) else w_manager w)
    /\ w_conns w1 = w_conns w
    /\ bk_tree (w_broker w1) = bk_tree (w_broker w)
    /\ w_store w1 = (if ok then connect_store k subs (snd (begin uuid (resumes k w) s)) w
                     else if cf_clean_start (c_flags k)
                          then mem_delete_will (cl_client_id (c_payload k)) (mem_delete_session (cl_client_id (c_payload k)) (w_store w))
                          else w_store w).
Proof.
  intros Hwf. unfold start_session.
  destruct (lookup_session k w) as [[[[resume subs] wl] infl] wa] eqn:El.
  assert (Hsame : forall (m : list (bytes * nat)) c i, aget bytes_eqb c m = Some i -> aput bytes_eqb c i m = m).
  { clear. induction m as [|[c1 j] m IH]; simpl; intros c i H; [discriminate|].
    destruct (bytes_eqb c c1) eqn:E; [|f_equal; auto]. injection H as ->. apply beqb_spec in E. subst. reflexivity. }
  assert (Hr : resume = resumes k w).
  { unfold resumes. unfold lookup_session in El. destruct (cf_clean_start (c_flags k)); simpl; [congruence|].
    destruct (is_some (aget bytes_eqb _ (w_manager w))); simpl; [congruence|].
    destruct (mem_load_session _ (w_store w)); simpl; congruence. }
  assert (Hst : w_store wa = if cf_clean_start (c_flags k)
                          then mem_delete_will (cl_client_id (c_payload k)) (mem_delete_session (cl_client_id (c_payload k)) (w_store w))
                          else w_store w).
  { unfold lookup_session in El. destruct (cf_clean_start (c_flags k)); simpl; [inv El; reflexivity|].
    destruct (is_some (aget bytes_eqb _ (w_manager w))); simpl; [congruence|].
    destruct (mem_load_session _ (w_store w)); simpl; congruence. }
  assert (Hmg : w_manager wa = if cf_clean_start (c_flags k) then adel bytes_eqb (cl_client_id (c_payload k)) (w_manager w) else w_manager w).
  { unfold lookup_session in El. destruct (cf_clean_start (c_flags k)); simpl; [inv El; reflexivity|].
    destruct (is_some (aget bytes_eqb _ (w_manager w))); simpl; [congruence|].
    destruct (mem_load_session _ (w_store w)); simpl; congruence. }
  pose proof (lookup_session_spec _ _ _ _ _ _ _ El) as (Hh & Hc & Ht & _ & _ & _ & _ & Hnil & Hiff).
  assert (Hwfa : wf wa).
  { destruct Hwf as [H1 H2]. split; rewrite ?Hh, ?Hc; auto. rewrite Hmg. intros c i.
    destruct (cf_clean_start (c_flags k)); [|apply H1].
    rewrite aget_adel by apply beqb_spec. destruct (bytes_eqb c _); [discriminate|apply H1]. }
  destruct (enter_session k wa) as [i wb] eqn:Ee.
  destruct (enter_session_spec _ _ _ _ Hwfa Ee) as (Hc2 & Hb2 & Ho & Hcase).
  assert (Hs : exists s, entered k w i subs wl infl s /\ nth_error (w_heap wb) i = Some s
             /\ length (w_heap wb) = Nat.max (length (w_heap w)) (S i)
             /\ w_manager wb = aput bytes_eqb (cl_client_id (c_payload k)) i (w_manager wa)).
  { destruct Hcase as [(s & E1 & E2 & E3 & E4 & E5)|(E1 & E2 & E3 & E4 & E5)].
    - exists (set_connect_packet k s).
      destruct Hiff as [Hiff _]. destruct Hiff as [Hcl Hmn]; [congruence|].
      destruct Hnil as (-> & -> & ->); [congruence|]. rewrite Hcl in Hmg.
      split; [apply en_old; auto; congruence|]. split; auto. split.
      + rewrite Hh in *. apply nth_error_lt in E2. lia.
      + rewrite E4. symmetry. apply Hsame. exact E1.
    - exists (session_new k). rewrite Hh in *. split; [|split; [exact E3|split; [lia|exact E4]]].
      apply en_new; auto.
      + destruct (cf_clean_start (c_flags k)); [left; auto | right; congruence].
      + intros Hcl. unfold lookup_session in El. rewrite Hcl in El. inv El. auto.
      + intros Hcl. unfold lookup_session in El. rewrite Hcl in El.
        rewrite Hcl in Hmg. rewrite Hmg in E1. rewrite E1 in El. simpl in El.
        destruct (mem_load_session _ (w_store w)); inv El; auto. }
  destruct Hs as (s & He & Hn & Hlen & Hman). rewrite Hn.
  destruct (begin uuid resume s) as [ack0 s1] eqn:Eb.
  intros H. exists i, subs, wl, infl, s. rewrite <- Hr, Eb. simpl.
  assert (Hstb : w_store wb = w_store wa) by (unfold w_store; rewrite Hb2; reflexivity).
  rewrite <- Hmg, <- Hst.
  destruct ok; injection H as <- <- <-; simpl.
  - repeat split; auto.
    + apply list_set_same. eapply nth_error_lt; eauto.
    + intros j Hj Hlt. rewrite list_set_other by auto. rewrite Ho by (auto; rewrite Hh; auto). rewrite Hh. reflexivity.
    + rewrite list_set_length. exact Hlen.
    + congruence.
    + rewrite Hb2. exact Ht.
    + unfold connect_store. simpl. unfold w_store in *. simpl. rewrite Hb2, Hst. reflexivity.
  - repeat split; auto.
    + apply list_set_same. eapply nth_error_lt; eauto.
    + intros j Hj Hlt. rewrite list_set_other by auto. rewrite Ho by (auto; rewrite Hh; auto). rewrite Hh. reflexivity.
    + rewrite list_set_length. exact Hlen.
    + congruence.
    + rewrite Hb2. exact Ht.
Qed.

(** ** The end of a connection *)
Lemma set_will_none s : se_will s = None -> set_will None s = s.
Proof. destruct s; simpl. intros ->. reflexivity. Qed.
Lemma set_will_same s : set_will (se_will s) s = s.
Proof. destruct s; reflexivity. Qed.

Lemma end_heap_same c i w s : nth_error (w_heap w) i = Some s ->
  nth_error (w_heap (end_connection c i w)) i = Some (set_will None s).
Proof.
  intros H. unfold end_connection. simpl. rewrite H. destruct (se_will s) eqn:E; simpl.
  - apply list_set_same. eapply nth_error_lt; eauto.
  - rewrite set_will_none; auto.
Qed.
Lemma end_heap_other c i j w : j <> i -> nth_error (w_heap (end_connection c i w)) j = nth_error (w_heap w) j.
Proof.
  intros H. unfold end_connection. simpl. destruct (nth_error (w_heap w) i) as [s|]; auto.
  destruct (se_will s); simpl; auto. apply list_set_other. exact H.
Qed.
Lemma end_length c i w : length (w_heap (end_connection c i w)) = length (w_heap w).
Proof.
  unfold end_connection. simpl. destruct (nth_error (w_heap w) i) as [s|]; auto.
  destruct (se_will s); simpl; auto. apply list_set_length.
Qed.
Lemma end_manager c i w : w_manager (end_connection c i w) = w_manager w.
Proof.
  unfold end_connection. simpl. destruct (nth_error (w_heap w) i) as [s|]; auto.
  destruct (se_will s); simpl; auto.
Qed.
Lemma end_conns c i w : w_conns (end_connection c i w) = adel Nat.eqb c (w_conns w).
Proof.
  unfold end_connection. simpl. destruct (nth_error (w_heap w) i) as [s|]; auto.
  destruct (se_will s); simpl; auto.
Qed.

(** ** What a step does to the sessions *)
Definition served_session (w : world) (c : nat) : option session :=
  match aget Nat.eqb c (w_conns w) with Some i => nth_error (w_heap w) i | None => None end.
Lemma serves_session w c i s : serves w c i s -> served_session w c = Some s.
Proof. intros [H1 H2]. unfold served_session. rewrite H1. exact H2. Qed.
Inductive change (am : option auth_manager) (w : world) : event -> session -> session -> Prop :=
| ch_same e s : change am w e s s
| ch_connect c k u a resume s :
    change am w (EFirst c (Some (Connect k)) u a) s (snd (begin u resume (set_connect_packet k s)))
| ch_packet c k s s' b' r : (forall d, k <> Disconnect d) -> served_session w c = Some s ->
    process_incoming am k s (w_broker w) = (r, s', b') -> (forall e, r <> Err e) -> change am w (EPacket c k) s s'
| ch_packet_end c k s s' b' e : (forall d, k <> Disconnect d) -> served_session w c = Some s ->
    process_incoming am k s (w_broker w) = (Err e, s', b') -> change am w (EPacket c k) s (set_will None s')
| ch_disconnect c d s : served_session w c = Some s -> change am w (EPacket c (Disconnect d)) s (set_will None s)
| ch_out c f s s' r : served_session w c = Some s ->
    process_outgoing f s (w_broker w) = Some (r, s') -> change am w (EOut c f) s s'
| ch_end c s : served_session w c = Some s -> change am w (EEnd c) s (set_will None s).

(** A session created by a step. *)
Inductive created (cfg : config) (w : world) : event -> session -> Prop :=
| cr_connect c k u subs wl infl s b b' : wf w -> not_served w c -> authenticated cfg k = true ->
    entered k w (length (w_heap w)) subs wl infl (session_new k) ->
    bk_tree b = bk_tree (w_broker w) -> ms_retained (bk_store b) = ms_retained (w_store w) ->
    restore_subscriptions subs (snd (begin u (resumes k w) (session_new k))) b = (s, b') ->
    created cfg w (EFirst c (Some (Connect k)) u true) (match wl with Some x => set_will (Some x) s | None => s end)
| cr_unacked c k u subs wl infl : wf w -> not_served w c -> authenticated cfg k = true ->
    entered k w (length (w_heap w)) subs wl infl (session_new k) ->
    created cfg w (EFirst c (Some (Connect k)) u false) (snd (begin u (resumes k w) (session_new k))).

Ltac step_cases :=
  match goal with
  | H : context [match aget Nat.eqb ?c (w_conns ?w) with _ => _ end] |- _ => destruct (aget Nat.eqb c (w_conns w)) as [ii|] eqn:Ec
  end; [match goal with
  | H : context [match nth_error (w_heap ?w) ?i with _ => _ end] |- _ => destruct (nth_error (w_heap w) i) as [ss|] eqn:Es
  end|].

(** The event cannot occur: no such connection, or a first packet on an open one. *)
Definition idle (w : world) (e : event) : Prop :=
  match e with
  | EFirst c _ _ _ => is_some (aget Nat.eqb c (w_conns w)) = true
  | EPacket c _ | EOut c _ | EEnd c | EPanic c => served_session w c = None
  | ERestart => False
  end.
Lemma step_inv cfg w e w' o : step cfg w e = (w', o) ->
  (w' = w /\ o = [] /\ idle w e)
  \/ (exists c k, e = EFirst c k (match e with EFirst _ _ u _ => u | _ => [] end) (match e with EFirst _ _ _ a => a | _ => true end)
        /\ not_served w c /\ (forall p, k <> Some (Connect p)) /\ w' = w /\ o = [Closed c])
  \/ (exists c k u a, e = EFirst c (Some (Connect k)) u a /\ not_served w c /\ connect_step cfg c k u a w = (w', o))
  \/ (exists c i s d, e = EPacket c (Disconnect d) /\ serves w c i s /\ w' = disconnect_step c i s w /\ o = [Closed c])
  \/ (exists c i s k, e = EPacket c k /\ serves w c i s /\ (forall d, k <> Disconnect d) /\ packet_step cfg c i s k w = (w', o))
  \/ (exists c i s f, e = EOut c f /\ serves w c i s /\ out_step c i s f w = (w', o))
  \/ (exists c i s, e = EEnd c /\ serves w c i s /\ w' = end_connection c i w /\ o = [Closed c])
  \/ (exists c i s, e = EPanic c /\ serves w c i s /\ w' = set_conns (adel Nat.eqb c (w_conns w)) w /\ o = [Crashed c])
  \/ (e = ERestart /\ w' = restart w /\ o = map (fun x => Closed (fst x)) (w_conns w)).
Proof.
  destruct e as [c k u a|c k|c f|c|c|]; simpl; intros H; unfold served_session.
  - destruct (aget Nat.eqb c (w_conns w)) as [i|] eqn:Ec; simpl in H.
    + inv H. left. auto.
    + right. destruct k as [[]|];
        try (left; exists c; eexists; split; [reflexivity|]; split; [exact Ec|]; split; [discriminate|]; inv H; auto; fail).
      right; left. exists c, c0, u, a. auto.
  - step_cases; try (inv H; left; auto; fail).
    destruct k; try (do 4 right; left; exists c, ii, ss; eexists; split; [reflexivity|]; split; [split; auto|]; split; [discriminate|]; exact H).
    do 3 right; left. exists c, ii, ss; eexists; split; [reflexivity|]; split; [split; auto|]. inv H. auto.
  - step_cases; try (inv H; left; auto; fail).
    do 5 right; left. exists c, ii, ss, f. repeat split; auto.
  - step_cases; try (inv H; left; auto; fail).
    do 6 right; left. exists c, ii, ss. inv H. repeat split; auto.
  - step_cases; try (inv H; left; auto; fail).
    do 7 right; left. exists c, ii, ss. inv H. repeat split; auto.
  - do 8 right. inv H. auto.
Qed.

Lemma disconnect_heap c i s w j x : nth_error (w_heap w) i = Some s -> nth_error (w_heap w) j = Some x ->
  nth_error (w_heap (disconnect_step c i s w)) j = Some (if Nat.eqb j i then set_will None x else x).
Proof.
  intros H Hj. unfold disconnect_step. destruct (Nat.eqb j i) eqn:E.
  - apply Nat.eqb_eq in E. subst. rewrite H in Hj. injection Hj as <-.
    rewrite (end_heap_same _ _ _ (set_will None s)); [reflexivity|]. simpl. apply list_set_same. eapply nth_error_lt; eauto.
  - apply Nat.eqb_neq in E. rewrite end_heap_other by auto. simpl. rewrite list_set_other by auto. exact Hj.
Qed.

Lemma connect_heap cfg c k u a w w' o : wf w -> not_served w c -> connect_step cfg c k u a w = (w', o) ->
  (forall j s, nth_error (w_heap w) j = Some s ->
     exists s', nth_error (w_heap w') j = Some s' /\ change (sv_manager cfg) w (EFirst c (Some (Connect k)) u a) s s')
  /\ (forall j s', nth_error (w_heap w') j = Some s' -> (length (w_heap w) <= j)%nat ->
        created cfg w (EFirst c (Some (Connect k)) u a) s')
  /\ wf w' /\ (length (w_heap w) <= length (w_heap w'))%nat.
Proof.
  intros Hwf Hns. unfold connect_step. destruct (authenticated cfg k) eqn:Hau; simpl;
    [|intros H; inv H; repeat split; try (destruct Hwf; auto; fail); auto;
      [intros j s Hj; exists s; split; auto; constructor
      |intros j s' Hj Hl; apply nth_error_lt in Hj; lia]].
  destruct (start_session u a k w) as [[ack r] w1] eqn:Es.
  destruct (start_session_spec _ _ _ _ _ _ _ Hwf Es) as (i & subs & wl & infl & s & He & Hack & Hr & Hn & Ho & Hlen & Hm & Hc & Ht & Hst).
  assert (Hi : (i < length (w_heap w))%nat /\ subs = [] /\ wl = None /\ (exists s0, nth_error (w_heap w) i = Some s0 /\ s = set_connect_packet k s0)
     \/ i = length (w_heap w) /\ s = session_new k).
  { destruct He as [s0 H1 H2 H3|? ? ? H1 H2]; [left|right; auto]. split; [eapply nth_error_lt; eauto|eauto]. }
  assert (Hwf1 : wf w1).
  { destruct Hwf as [W1 W2]. split.
    - intros x j. rewrite Hm, Hlen, aget_aput by apply beqb_spec. destruct (bytes_eqb x _).
      + intros H. injection H as <-. lia.
      + destruct (cf_clean_start (c_flags k)); [rewrite aget_adel by apply beqb_spec; destruct (bytes_eqb x _); [discriminate|]|];
          intros H; apply W1 in H; lia.
    - intros d j. rewrite Hc, Hlen. intros H. apply W2 in H. lia. }
  assert (Hold : forall j s, nth_error (w_heap w) j = Some s ->
     exists s', nth_error (w_heap w1) j = Some s' /\ change (sv_manager cfg) w (EFirst c (Some (Connect k)) u a) s s').
  { intros j x Hj. destruct (Nat.eq_dec j i) as [->|Hne].
    - destruct Hi as [(_ & _ & _ & s0 & E1 & ->)|[-> _]]; [|apply nth_error_lt in Hj; lia].
      rewrite E1 in Hj. injection Hj as <-. eexists. split; [exact Hn|]. constructor.
    - exists x. rewrite Ho; auto; [split; auto; constructor | eapply nth_error_lt; eauto]. }
  destruct a.
  - subst r. simpl. rewrite Hn.
    destruct (restore_subscriptions subs (snd (begin u (resumes k w) s)) (w_broker w1)) as [s1 b1] eqn:Er.
    intros H. inv H. simpl. repeat split.
    + intros j x Hj. destruct (Nat.eq_dec j i) as [->|Hne].
      * destruct Hi as [(Hlt & -> & -> & s0 & E1 & ->)|[-> _]]; [|apply nth_error_lt in Hj; lia].
        rewrite E1 in Hj. injection Hj as <-. simpl in Er. injection Er as <- <-.
        eexists. split; [apply list_set_same; rewrite Hlen; lia|]. constructor.
      * rewrite list_set_other by auto. apply Hold, Hj.
    + intros j x Hj Hle. assert (Hj2 := nth_error_lt _ _ _ Hj). rewrite list_set_length, Hlen in Hj2.
      destruct Hi as [(Hlt & _)|[Hi ->]]; [lia|]. assert (j = i) by lia. subst j.
      rewrite list_set_same in Hj by (rewrite Hlen; lia). injection Hj as <-.
      rewrite Hi in He. eapply cr_connect; eauto. fold (w_store w1). rewrite Hst. unfold connect_store.
      destruct (se_will _); destruct (cf_clean_start (c_flags k)); reflexivity.
    + intros x j. simpl. rewrite list_set_length. apply (proj1 Hwf1).
    + intros d j. simpl. rewrite list_set_length, aget_aput by apply nateqb_spec. destruct (Nat.eqb d c).
      * intros H. injection H as <-. lia.
      * apply (proj2 Hwf1).
    + rewrite list_set_length. lia.
  - subst r. intros H. inv H. repeat split; auto; try apply Hwf1.
    + intros j x Hj Hle. assert (Hj2 := nth_error_lt _ _ _ Hj). rewrite Hlen in Hj2.
      destruct Hi as [(Hlt & _)|[Hi ->]]; [lia|]. assert (j = i) by lia. subst j.
      rewrite Hn in Hj. injection Hj as <-. rewrite Hi in He. eapply cr_unacked; eauto.
    + lia.
Qed.

Lemma packet_heap cfg c i s k w w' o : wf w -> serves w c i s -> (forall d, k <> Disconnect d) ->
  packet_step cfg c i s k w = (w', o) ->
  (exists s', nth_error (w_heap w') i = Some s' /\ change (sv_manager cfg) w (EPacket c k) s s')
  /\ (forall j, j <> i -> nth_error (w_heap w') j = nth_error (w_heap w) j)
  /\ wf w' /\ length (w_heap w') = length (w_heap w).
Proof.
  intros Hwf Hs Hk. assert (Hss := serves_session _ _ _ _ Hs). destruct Hs as [Hc Hi]. unfold packet_step.
  destruct (process_incoming (sv_manager cfg) k s (w_broker w)) as [[r s1] b1] eqn:Ep.
  assert (Hp : nth_error (w_heap (put_session i s1 (set_broker b1 w))) i = Some s1) by (eapply put_same; simpl; eauto).
  assert (Hq : forall j, j <> i -> nth_error (w_heap (put_session i s1 (set_broker b1 w))) j = nth_error (w_heap w) j)
    by (intros j Hj; rewrite put_other by auto; reflexivity).
  assert (Hw : wf (put_session i s1 (set_broker b1 w))) by apply wf_put, wf_broker, Hwf.
  destruct r as [resp|er|].
  - intros H. inv H.
    destruct (is_subscription_change k); destruct (inflight_completed k); simpl;
     (split; [exists s1; split; [exact Hp|econstructor; eauto; discriminate]|split; [exact Hq|split; [exact Hw|apply list_set_length]]]).
  - intros H. inv H. split; [|split; [|split]].
    + eexists. split; [apply end_heap_same, Hp|]. eapply ch_packet_end; eauto.
    + intros j Hj. rewrite end_heap_other; auto.
    + apply wf_end, Hw.
    + rewrite end_length. apply list_set_length.
  - intros H. inv H. split; [exists s1; split; [exact Hp|econstructor; eauto; discriminate]|split; [exact Hq|split; [|apply list_set_length]]].
    exact (wf_close c _ Hw).
Qed.

Lemma out_heap am c i s f w w' o : wf w -> serves w c i s -> out_step c i s f w = (w', o) ->
  (exists s', nth_error (w_heap w') i = Some s' /\ change am w (EOut c f) s s')
  /\ (forall j, j <> i -> nth_error (w_heap w') j = nth_error (w_heap w) j)
  /\ wf w' /\ length (w_heap w') = length (w_heap w).
Proof.
  intros Hwf Hs. assert (Hss := serves_session _ _ _ _ Hs). destruct Hs as [Hc Hi]. unfold out_step.
  destruct (process_outgoing f s (w_broker w)) as [[r s1]|] eqn:Ep.
  2:{ intros H. inv H. repeat split; auto; try apply Hwf. exists s. split; auto. constructor. }
  assert (Hp : nth_error (w_heap (put_session i s1 w)) i = Some s1) by (eapply put_same; simpl; eauto).
  assert (Hq : forall j, j <> i -> nth_error (w_heap (put_session i s1 w)) j = nth_error (w_heap w) j)
    by (intros j Hj; rewrite put_other by auto; reflexivity).
  assert (Hw : wf (put_session i s1 w)) by apply wf_put, Hwf.
  assert (Hgo : exists s', nth_error (w_heap (put_session i s1 w)) i = Some s' /\ change am w (EOut c f) s s')
    by (exists s1; split; [exact Hp|econstructor; eauto]).
  destruct r as [p|er|]; intros H.
  - injection H as <- _. destruct (pb_packet_id p) as [pid|]; [|repeat split; auto; try apply Hw; apply list_set_length].
    destruct (pb_qos p); simpl; (split; [exact Hgo|split; [exact Hq|split; [exact Hw|apply list_set_length]]]).
  - inv H. simpl. split; [exact Hgo|split; [exact Hq|split; [exact (wf_close c _ Hw)|apply list_set_length]]].
  - inv H. simpl. split; [exact Hgo|split; [exact Hq|split; [exact (wf_close c _ Hw)|apply list_set_length]]].
Qed.

(** The main lemma: sessions change only as [change] says, and are created only by CONNECT. *)
Lemma step_heap cfg w e w' o : wf w -> e <> ERestart -> step cfg w e = (w', o) ->
  (forall j s, nth_error (w_heap w) j = Some s ->
     exists s', nth_error (w_heap w') j = Some s' /\ change (sv_manager cfg) w e s s')
  /\ (forall j s', nth_error (w_heap w') j = Some s' -> (length (w_heap w) <= j)%nat -> created cfg w e s')
  /\ wf w' /\ (length (w_heap w) <= length (w_heap w'))%nat.
Proof.
  intros Hwf He H. apply step_inv in H.
  assert (Hsm : forall w' : world, wf w' -> length (w_heap w') = length (w_heap w) ->
    (forall j s, nth_error (w_heap w) j = Some s ->
     exists s', nth_error (w_heap w') j = Some s' /\ change (sv_manager cfg) w e s s') ->
    (forall j s, nth_error (w_heap w) j = Some s ->
     exists s', nth_error (w_heap w') j = Some s' /\ change (sv_manager cfg) w e s s')
  /\ (forall j s', nth_error (w_heap w') j = Some s' -> (length (w_heap w) <= j)%nat -> created cfg w e s')
  /\ wf w' /\ (length (w_heap w) <= length (w_heap w'))%nat).
  { intros v Hv Hl Hh. repeat split; auto; try apply Hv; try lia.
    intros j s' Hj Hle. apply nth_error_lt in Hj. lia. }
  destruct H as [(-> & _)|[(c&k&_&_&_&->&_)|[(c&k&u&a&->&Hn&H)|[(c&i&s&d&->&[Hc Hi]&->&_)|[(c&i&s&k&->&Hs&Hk&H)|[(c&i&s&f&->&Hs&H)|[(c&i&s&->&[Hc Hi]&->&_)|[(c&i&s&->&[Hc Hi]&->&_)|(->&_)]]]]]]]];
    [..|congruence].
  - apply Hsm; auto. intros j s Hj. exists s. split; auto. constructor.
  - apply Hsm; auto. intros j s Hj. exists s. split; auto. constructor.
  - apply (connect_heap cfg c k u a w w' o Hwf Hn H).
  - apply Hsm.
    + unfold disconnect_step. apply wf_end, wf_store, wf_put, Hwf.
    + unfold disconnect_step. rewrite end_length. apply list_set_length.
    + intros j x Hj. eexists. split; [apply disconnect_heap; eauto|]. destruct (Nat.eqb j i) eqn:Ej; constructor.
      apply Nat.eqb_eq in Ej. subst j. unfold served_session. rewrite Hc. exact Hj.
  - destruct (packet_heap cfg c i s k w w' o Hwf Hs Hk H) as (H1 & H2 & H3 & H4). apply Hsm; auto.
    intros j x Hj. destruct (Nat.eq_dec j i) as [->|Hne].
    + destruct Hs as [_ Hs]. rewrite Hs in Hj. injection Hj as <-. exact H1.
    + exists x. rewrite H2 by auto. split; auto. constructor.
  - destruct (out_heap (sv_manager cfg) c i s f w w' o Hwf Hs H) as (H1 & H2 & H3 & H4). apply Hsm; auto.
    intros j x Hj. destruct (Nat.eq_dec j i) as [->|Hne].
    + destruct Hs as [_ Hs]. rewrite Hs in Hj. injection Hj as <-. exact H1.
    + exists x. rewrite H2 by auto. split; auto. constructor.
  - apply Hsm; [apply wf_end, Hwf|apply end_length|].
    intros j x Hj. destruct (Nat.eq_dec j i) as [->|Hne].
    + rewrite Hi in Hj. injection Hj as <-. eexists. split; [apply end_heap_same, Hi|constructor].
      unfold served_session. rewrite Hc. exact Hi.
    + exists x. rewrite end_heap_other by auto. split; auto. constructor.
  - apply Hsm; [exact (wf_close c _ Hwf)|reflexivity|].
    intros j x Hj. exists x. split; [exact Hj|constructor].
Qed.

Lemma step_wf cfg w e w' o : wf w -> step cfg w e = (w', o) -> wf w'.
Proof.
  intros Hwf H. destruct e; try (apply (step_heap cfg w _ w' o Hwf) in H; [apply H|discriminate]).
  simpl in H. inv H. apply wf_restart.
Qed.
Lemma run_wf cfg es : forall w, wf w -> wf (fst (run cfg es w)).
Proof.
  induction es as [|e es IH]; intros w Hw; simpl; auto.
  destruct (step cfg w e) as [w1 o1] eqn:E. specialize (IH w1 (step_wf _ _ _ _ _ Hw E)).
  destruct (run cfg es w1). exact IH.
Qed.
Lemma reachable_wf cfg w : reachable cfg w -> wf w.
Proof. intros [es <-]. apply run_wf, wf_new. Qed.

Lemma run_cons cfg e es w : run cfg (e :: es) w =
  (fst (run cfg es (fst (step cfg w e))), snd (step cfg w e) ++ snd (run cfg es (fst (step cfg w e)))).
Proof.
  simpl. destruct (step cfg w e) as [w1 o1]. simpl. destruct (run cfg es w1) as [w2 o2]. reflexivity.
Qed.
Lemma run_app cfg es1 : forall es2 w, run cfg (es1 ++ es2) w =
  (fst (run cfg es2 (fst (run cfg es1 w))), snd (run cfg es1 w) ++ snd (run cfg es2 (fst (run cfg es1 w)))).
Proof.
  induction es1 as [|e es1 IH]; intros es2 w.
  - simpl. destruct (run cfg es2 w); reflexivity.
  - change ((e :: es1) ++ es2) with (e :: (es1 ++ es2)). rewrite run_cons, IH, (run_cons cfg e es1 w). cbn [fst snd]. rewrite app_assoc. reflexivity.
Qed.
