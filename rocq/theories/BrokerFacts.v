(** Facts about broadcast receivers, retained messages and races in the broker. *)
From Verif Require Import Base Codec Tac Maps CodecFacts SpecTopic Topic TopicFacts TopicTree TreeFacts
  Storage SpecStorage StorageFacts Broker SpecBroker.

(** ** Broadcast receivers *)
Section Chan.
  Context {T : Type}.

  Lemma subseq_refl (a : list T) : subseq a a.
  Proof. induction a; constructor; auto. Qed.
  Lemma subseq_nil (a : list T) : subseq [] a.
  Proof. induction a; constructor; auto. Qed.
  Lemma subseq_app (a b c d : list T) : subseq a b -> subseq c d -> subseq (a ++ c) (b ++ d).
  Proof. intros H. induction H; intros Hc; simpl; auto; constructor; auto. Qed.
  Lemma subseq_app_r (a b d : list T) : subseq a b -> subseq a (b ++ d).
  Proof. intros H. rewrite <- (app_nil_r a). apply subseq_app; auto. apply subseq_nil. Qed.

  Lemma firstn_S_nth (l : list T) n v : nth_error l n = Some v -> firstn (S n) l = firstn n l ++ [v].
  Proof.
    revert n. induction l as [|x l IH]; intros [|n] H; simpl in *; try discriminate.
    - injection H as ->. reflexivity.
    - rewrite <- (IH n H). reflexivity.
  Qed.

  Lemma subseq_prefix_weaken (a b : list T) n : subseq a (firstn n b) -> subseq a b.
  Proof. intros H. rewrite <- (firstn_skipn n b). apply subseq_app_r. exact H. Qed.
End Chan.

(** What a poll yields: the first value not read yet that the channel still keeps. *)
Lemma stream_next_eq log st :
  stream_next log st
  = match st_retained st with
    | m :: ms => Some (m, Mk_stream ms (st_next st))
    | [] =>
        match nth_error log (Nat.max (st_next st) (length log - capacity)) with
        | Some m => Some (m, Mk_stream [] (S (Nat.max (st_next st) (length log - capacity))))
        | None => None
        end
    end.
Proof.
  unfold stream_next, recv. destruct (st_retained st); [|reflexivity]. set (n := st_next st).
  destruct (Nat.ltb_spec n (length log - capacity)) as [H|H].
  - rewrite Nat.max_r by lia. destruct (Nat.ltb_spec (length log - capacity) (length log - capacity)); [lia|].
    cbv zeta. destruct (nth_error log (length log - capacity)); reflexivity.
  - rewrite Nat.max_l by lia. cbv zeta. destruct (nth_error log n); reflexivity.
Qed.

(** ** Retained messages *)

Lemma ra_snoc_inv t h t' m o : retained_after t (h ++ [(t', m)]) o ->
  (t' = t /\ mg_retain m = true /\ ~ empty_payload m /\ o = Some m)
  \/ (t' = t /\ mg_retain m = true /\ empty_payload m /\ o = None)
  \/ ((t' <> t \/ mg_retain m = false) /\ retained_after t h o).
Proof.
  intros H. remember (h ++ [(t', m)]) as l eqn:E. destruct H as [|h' m' Hr He|h' m' Hr He|h' t2 m' o Hd H].
  - destruct h; discriminate.
  - apply app_inj_tail in E. destruct E as [-> E]. injection E as -> ->. auto 8.
  - apply app_inj_tail in E. destruct E as [-> E]. injection E as -> ->. auto 8.
  - apply app_inj_tail in E. destruct E as [-> E]. injection E as -> ->. auto 8.
Qed.

Lemma ra_nil_inv t o : retained_after t [] o -> o = None.
Proof.
  intros H. remember [] as l eqn:E. destruct H as [|h m Hr He|h m Hr He|h t2 m o Hd H]; auto;
    destruct h; discriminate.
Qed.

Lemma retained_after_fun t h : forall o o', retained_after t h o -> retained_after t h o' -> o = o'.
Proof.
  induction h as [|[t' m] h IH] using rev_ind; intros o o' H H'.
  - apply ra_nil_inv in H, H'. congruence.
  - apply ra_snoc_inv in H, H'.
    destruct H as [(E&R&P&->)|[(E&R&P&->)|([E|E]&H)]]; destruct H' as [(E'&R'&P'&->)|[(E'&R'&P'&->)|([E'|E']&H')]];
      try congruence; try contradiction; eauto.
Qed.

Lemma payload_dec m : {empty_payload m} + {~ empty_payload m}.
Proof.
  unfold empty_payload. destruct (mg_payload m) as [[|x l]|].
  - left; auto.
  - right. intros [H|H]; discriminate.
  - left; auto.
Defined.

Lemma publish_store_eq t m s :
  publish_store t m s =
  if mg_retain m then
    mem_store_retained t (if payload_dec m then None else Some (with_retain false m)) s
  else s.
Proof.
  unfold publish_store. destruct (mg_retain m); auto.
  destruct (payload_dec m) as [[H|H]|H].
  - rewrite H. reflexivity.
  - rewrite H. reflexivity.
  - destruct (mg_payload m) as [[|x l]|] eqn:E; auto; exfalso; apply H; unfold empty_payload; auto.
Qed.

(** The retained table holds [o] for each topic, with the flag cleared, and each topic once. *)
Definition ret_inv (h : list (bytes * message)) (s : mem_store) : Prop :=
  NoDup (akeys (ms_retained s)) /\
  forall t, exists o, retained_after t h o
                      /\ aget bytes_eqb t (ms_retained s) = option_map (with_retain false) o.

Lemma ret_inv_new : ret_inv [] mem_new.
Proof. split; [constructor|]. intros t. exists None. split; [constructor|reflexivity]. Qed.

Lemma ret_inv_store h s t m : ret_inv h s -> ret_inv (h ++ [(t, m)]) (publish_store t m s).
Proof.
  intros [Hnd H]. rewrite publish_store_eq. destruct (mg_retain m) eqn:Er.
  - split.
    + simpl. destruct (payload_dec m); [apply nodup_adel | apply nodup_aput]; auto; apply beqb_spec.
    + intros t'. destruct (bytes_dec t' t) as [->|Hn].
      * destruct (payload_dec m) as [He|He]; simpl.
        -- exists None. split; [apply ra_clear; auto|]. rewrite aget_del_same; auto; apply beqb_spec.
        -- exists (Some m). split; [apply ra_set; auto|]. rewrite aget_put_same; auto; apply beqb_spec.
      * destruct (H t') as (o & Ho & E). exists o. split; [apply ra_other; auto|].
        destruct (payload_dec m); simpl; [rewrite aget_del_other | rewrite aget_put_other]; auto; apply beqb_spec.
  - split; auto. intros t'. destruct (H t') as (o & Ho & E). exists o.
    split; auto. apply ra_other; auto.
Qed.

Lemma ret_inv_run os : ret_inv (published os) (bk_store (broker_run os broker_new)).
Proof.
  induction os as [|o os IH] using rev_ind; [apply ret_inv_new|].
  unfold broker_run, published in *. rewrite fold_left_app, flat_map_app. simpl.
  destruct o as [f|t m]; simpl.
  - rewrite app_nil_r. exact IH.
  - apply ret_inv_store. exact IH.
Qed.

Lemma Forall2_weaken {A B} (P Q : A -> B -> Prop) l l' :
  (forall a b, P a b -> Q a b) -> Forall2 P l l' -> Forall2 Q l l'.
Proof. intros H F. induction F; constructor; auto. Qed.

Lemma ret_inv_get h s f : ret_inv h s -> ok_levels (levels f) ->
  exists ts, NoDup ts
    /\ (forall t, In t ts <-> matches f t /\ exists m, retained_after t h (Some m))
    /\ Forall2 (fun t m => exists m0, retained_after t h (Some m0) /\ m = with_retain true m0)
               ts (mem_get_retained f s).
Proof.
  intros [Hnd H] Hf.
  destruct (lists_filter bytes_eqb beqb_spec (fun t => matches f t)
             (fun tm => topic_matches_filter (fst tm) (levels f))
             (fun t => aget bytes_eqb t (ms_retained s)) (fun _ m => with_retain true m) (ms_retained s))
    as (ts & H1 & H2 & H3); auto.
  { intros t v _. apply topic_matches_filter_iff. exact Hf. }
  exists ts. split; [exact H1|split].
  - intros t. rewrite H2. destruct (H t) as (o & Ho & E). rewrite E. destruct o as [m|]; simpl.
    + split; intros [Hm _]; split; auto; [eauto|discriminate].
    + split; intros [Hm Hx]; [congruence|]. destruct Hx as [m Hx].
      pose proof (retained_after_fun _ _ _ _ Ho Hx). discriminate.
  - unfold mem_get_retained. eapply Forall2_weaken; [|exact H3]. simpl. intros t m (v & E & ->).
    destruct (H t) as (o & Ho & Eo). rewrite E in Eo. destruct o as [m0|]; [|discriminate].
    injection Eo as ->. exists m0. split; auto.
Qed.

(** ** Races *)

Lemma publish_route_eq t m n : publish_route t m n
  = fold_left (fun n p => send_at p m n) (dests (levels t) [] n) n.
Proof. unfold publish_route. rewrite tree_publish_eq. reflexivity. Qed.

Lemma route_node t m n q : node_at q (publish_route t m n) <> None <-> node_at q n <> None.
Proof. rewrite publish_route_eq. apply node_at_sends. Qed.

Lemma route_log t m n f : Forall plain (levels t) -> node_at (levels f) n <> None ->
  log_at (levels f) (publish_route t m n)
  = log_at (levels f) n ++ (if matches_dec f t then [m] else []).
Proof.
  intros Hp Hf. apply (publish_log t m n); auto. unfold publish_route.
  rewrite tree_publish_eq. reflexivity.
Qed.

Section Race.
  Variable f : bytes.
  Variable pub : nat -> bytes * message.
  Notation step := (race_step f pub).
  Notation run := (race_run f pub).

  Lemma run_app a b r : run (a ++ b) r = run b (run a r).
  Proof. apply fold_left_app. Qed.

  Definition tree_of (r : race) := bk_tree (rc_broker r).
  Definition store_of (r : race) := bk_store (rc_broker r).

  Lemma step_start r e : e <> SRegister -> rc_start (step r e) = rc_start r.
  Proof. destruct e; simpl; try destruct (pub i); simpl; auto. congruence. Qed.
  Lemma step_retained r e : e <> SLookup -> rc_retained (step r e) = rc_retained r.
  Proof. destruct e; simpl; try destruct (pub i); simpl; auto. congruence. Qed.
  Lemma run_start es : forall r, ~ In SRegister es -> rc_start (run es r) = rc_start r.
  Proof.
    induction es as [|e es IH]; intros r H; simpl; auto. unfold race_run in *. simpl.
    rewrite IH by (intros Hi; apply H; right; auto).
    apply step_start. intros ->. apply H. left; auto.
  Qed.
  Lemma run_retained es : forall r, ~ In SLookup es -> rc_retained (run es r) = rc_retained r.
  Proof.
    induction es as [|e es IH]; intros r H; simpl; auto. unfold race_run in *. simpl.
    rewrite IH by (intros Hi; apply H; right; auto).
    apply step_retained. intros ->. apply H. left; auto.
  Qed.

  Definition plain_pubs : Prop := forall i, Forall plain (levels (fst (pub i))).

  Lemma step_node r e q : node_at q (tree_of r) <> None -> node_at q (tree_of (step r e)) <> None.
  Proof.
    intros H. destruct e; simpl; try (destruct (pub i)); simpl; auto.
    - unfold tree_of. simpl. apply route_node. exact H.
    - unfold tree_of. simpl. apply node_at_subscribe. auto.
  Qed.

  Lemma run_log es : plain_pubs -> forall r, node_at (levels f) (tree_of r) <> None ->
    exists vs, log_at (levels f) (tree_of (run es r)) = log_at (levels f) (tree_of r) ++ vs
      /\ forall i, In (PRoute i) es -> matches f (fst (pub i)) -> In (snd (pub i)) vs.
  Proof.
    intros Hp. induction es as [|e es IH]; intros r Hn.
    - exists []. rewrite app_nil_r. split; [auto | intros i []].
    - unfold race_run in *. simpl. destruct (IH (step r e)) as (vs & E & Hin).
      + apply step_node. exact Hn.
      + assert (Hs : exists ws, log_at (levels f) (tree_of (step r e)) = log_at (levels f) (tree_of r) ++ ws
                  /\ forall i, e = PRoute i -> matches f (fst (pub i)) -> In (snd (pub i)) ws).
        { destruct e as [i|i| |]; simpl.
          - exists []. rewrite app_nil_r. destruct (pub i). simpl. split; [auto | discriminate].
          - destruct (pub i) as [t m] eqn:Ei. unfold tree_of. simpl.
            exists (if matches_dec f t then [m] else []). split.
            + apply route_log; auto. specialize (Hp i). rewrite Ei in Hp. exact Hp.
            + intros j Ej Hm. injection Ej as <-. rewrite Ei in *. simpl in *.
              destruct (matches_dec f t); [left; auto | contradiction].
          - exists []. rewrite app_nil_r. unfold tree_of. simpl. rewrite log_at_subscribe.
            split; [auto | discriminate].
          - exists []. rewrite app_nil_r. split; [auto | discriminate]. }
        destruct Hs as (ws & Es & Hws). exists (ws ++ vs). split.
        * rewrite E, Es, app_assoc. reflexivity.
        * intros i [He|Hi] Hm; apply in_app_iff; [left; apply (Hws i) | right; apply Hin]; auto.
  Qed.

  Definition stored (es : list race_event) : list (bytes * message) :=
    flat_map (fun e => match e with PStore i => [pub i] | _ => [] end) es.

  Lemma run_store es : forall h r, ret_inv h (store_of r) -> ret_inv (h ++ stored es) (store_of (run es r)).
  Proof.
    induction es as [|e es IH]; intros h r H; simpl.
    - rewrite app_nil_r. exact H.
    - unfold race_run in *. simpl. destruct e as [i|i| |]; simpl.
      + destruct (pub i) as [t m] eqn:Ei.
        change (h ++ (t, m) :: stored es) with (h ++ [(t, m)] ++ stored es). rewrite app_assoc. apply IH.
        unfold store_of. simpl. apply ret_inv_store. exact H.
      + destruct (pub i). apply IH. exact H.
      + apply IH. exact H.
      + apply IH. exact H.
  Qed.

  (** The last store on a topic determines the retained value. *)
  Lemma retained_last t h es i m : pub i = (t, m) -> mg_retain m = true -> In (PStore i) es ->
    exists j m' es1 es2, es = es1 ++ PStore j :: es2 /\ pub j = (t, m') /\ mg_retain m' = true
      /\ (In (PStore i) es1 \/ j = i)
      /\ retained_after t (h ++ stored es) (if payload_dec m' then None else Some m').
  Proof.
    intros Hi Hr. induction es as [|e es IH] using rev_ind; intros Hin; [contradiction|].
    assert (Hst : stored (es ++ [e]) = stored es ++ (match e with PStore i => [pub i] | _ => [] end)).
    { unfold stored. rewrite flat_map_app. simpl. rewrite app_nil_r. reflexivity. }
    assert (Hkeep : (match e with PStore k => fst (pub k) <> t \/ mg_retain (snd (pub k)) = false | _ => True end) ->
              In (PStore i) es ->
              exists j m' es1 es2, es ++ [e] = es1 ++ PStore j :: es2 /\ pub j = (t, m') /\ mg_retain m' = true
                /\ (In (PStore i) es1 \/ j = i)
                /\ retained_after t (h ++ stored (es ++ [e])) (if payload_dec m' then None else Some m')).
    { intros Hk Hie. destruct (IH Hie) as (j & m' & es1 & es2 & -> & Hj & Hrj & Hor & Hra).
      exists j, m', es1, (es2 ++ [e]). split; [rewrite <- app_assoc; reflexivity|].
      repeat split; auto.
      rewrite Hst, app_assoc. destruct e as [k|k| |]; try (rewrite app_nil_r; exact Hra).
      destruct (pub k) as [t' mk]. apply ra_other; auto. }
    apply in_app_iff in Hin.
    destruct e as [k|k| |];
      try (apply Hkeep; auto; destruct Hin as [Hin|[Hin|[]]]; [exact Hin | discriminate]).
    destruct (pub k) as [t' mk] eqn:Ek.
    destruct (bytes_dec t' t) as [->|Hne].
    - destruct (mg_retain mk) eqn:Erk.
      + exists k, mk, es, []. repeat split; auto.
        * destruct Hin as [Hin|[Hin|[]]]; auto. right. congruence.
        * rewrite Hst, app_assoc. destruct (payload_dec mk); [apply ra_clear | apply ra_set]; auto.
      + apply Hkeep; auto. destruct Hin as [Hin|[Hin|[]]]; auto. congruence.
    - apply Hkeep; auto. destruct Hin as [Hin|[Hin|[]]]; auto. congruence.
  Qed.

  (** [race_invariant]: a subscribe racing with retained publishes. *)
  Lemma no_lost_retained h b es i t m :
    plain_pubs -> ok_levels (levels f) -> ret_inv h (bk_store b) ->
    pub i = (t, m) -> mg_retain m = true -> matches f t ->
    NoDup es -> before (PStore i) (PRoute i) es -> before SRegister SLookup es ->
    let r := run es (race_init b) in
    exists start ret, rc_start r = Some start /\ rc_retained r = Some ret
      /\ (In m (skipn start (log_at (levels f) (tree_of r)))
          \/ exists j m', pub j = (t, m') /\ mg_retain m' = true
              /\ (j = i \/ before (PStore i) (PStore j) es)
              /\ before (PStore j) SLookup es
              /\ (~ empty_payload m' -> In (with_retain true m') ret)).
  Proof.
    intros Hp Hf Hb Hi Hr Hm Hnd Hbi (x & y & z & Ees) r.
    assert (Hreg : ~ In SRegister (y ++ SLookup :: z)).
    { rewrite Ees in Hnd. apply NoDup_remove_2 in Hnd. intros Hin. apply Hnd, in_app_iff. auto. }
    assert (Hlk : ~ In SLookup z).
    { rewrite Ees in Hnd. replace (x ++ SRegister :: y ++ SLookup :: z)
        with ((x ++ SRegister :: y) ++ SLookup :: z) in Hnd by (rewrite <- app_assoc; reflexivity).
      apply NoDup_remove_2 in Hnd. intros Hin. apply Hnd, in_app_iff. auto. }
    set (r1 := run x (race_init b)). set (r2 := step r1 SRegister).
    set (r3 := run y r2). set (r4 := step r3 SLookup).
    assert (Er : r = run z r4).
    { unfold r, r4, r3, r2, r1. rewrite Ees. rewrite run_app. simpl.
      change (fold_left (race_step f pub) (y ++ SLookup :: z)) with (run (y ++ SLookup :: z)).
      rewrite run_app. reflexivity. }
    assert (Er2 : r = run (y ++ SLookup :: z) r2) by (rewrite run_app; exact Er).
    exists (length (log_at (levels f) (tree_of r2))), (mem_get_retained f (store_of r3)).
    split; [|split].
    - rewrite Er2, run_start by auto. reflexivity.
    - rewrite Er, run_retained by auto. reflexivity.
    - assert (Hn2 : node_at (levels f) (tree_of r2) <> None).
      { unfold r2, tree_of. simpl. apply node_at_subscribe. right. exists []. rewrite app_nil_r. reflexivity. }
      destruct (in_dec (fun a b : race_event => ltac:(decide equality; apply Nat.eq_dec) : {a = b} + {a <> b})
                       (PRoute i) (y ++ SLookup :: z)) as [Hin|Hout].
      + left. destruct (run_log (y ++ SLookup :: z) Hp r2 Hn2) as (vs & E & Hvs).
        rewrite Er2, E, skipn_app, skipn_all, Nat.sub_diag. simpl.
        specialize (Hvs i Hin). rewrite Hi in Hvs. apply Hvs. exact Hm.
      + right.
        assert (Hsx : In (PStore i) (x ++ SRegister :: y)).
        { destruct Hbi as (p & q & s & Eb).
          assert (Hrx : In (PRoute i) x).
          { assert (Hie : In (PRoute i) es).
            { rewrite Eb. apply in_app_iff. right. right. apply in_elt. }
            rewrite Ees in Hie. apply in_app_iff in Hie. destruct Hie as [Hie|[Hie|Hie]]; auto.
            - discriminate.
            - contradiction. }
          apply in_split in Hrx. destruct Hrx as (x1 & x2 & Ex).
          assert (Hp1 : x1 = p ++ PStore i :: q).
          { assert (Eq : (p ++ PStore i :: q) ++ PRoute i :: s
                         = x1 ++ PRoute i :: x2 ++ SRegister :: y ++ SLookup :: z).
            { transitivity es.
              - rewrite Eb, <- app_assoc. reflexivity.
              - rewrite Ees, Ex, <- app_assoc. reflexivity. }
            assert (Hu : forall a b c d (e : race_event), a ++ e :: b = c ++ e :: d ->
                        ~ In e a -> ~ In e c -> a = c).
            { clear. induction a as [|u a IH]; intros b c d e H Ha Hc; destruct c as [|w c]; simpl in H; auto.
              - injection H as -> _. exfalso. apply Hc. left; auto.
              - injection H as -> _. exfalso. apply Ha. left; auto.
              - injection H as -> H. f_equal. apply (IH b c d e H).
                + intros Hi. apply Ha. right; auto.
                + intros Hi. apply Hc. right; auto. }
            symmetry. apply (Hu _ _ _ _ _ Eq).
            - rewrite Eb in Hnd.
              replace (p ++ PStore i :: q ++ PRoute i :: s) with ((p ++ PStore i :: q) ++ PRoute i :: s) in Hnd
                by (rewrite <- app_assoc; reflexivity).
              apply NoDup_remove_2 in Hnd. intros Hx. apply Hnd, in_app_iff. auto.
            - assert (Hnd' : NoDup (x1 ++ PRoute i :: x2 ++ SRegister :: y ++ SLookup :: z)).
              { rewrite <- Eq.
                replace ((p ++ PStore i :: q) ++ PRoute i :: s) with (p ++ PStore i :: q ++ PRoute i :: s)
                  by (rewrite <- app_assoc; reflexivity). rewrite <- Eb. exact Hnd. }
              apply NoDup_remove_2 in Hnd'. intros Hx. apply Hnd', in_app_iff. auto. }
          rewrite Ex, Hp1. apply in_app_iff. left. apply in_app_iff. left. apply in_elt. }
        destruct (retained_last t h (x ++ SRegister :: y) i m Hi Hr Hsx)
          as (j & m' & es1 & es2 & Esp & Hj & Hrj & Hor & Hra).
        exists j, m'. repeat split; auto.
        * destruct Hor as [Hor| ->]; auto. right.
          apply in_split in Hor. destruct Hor as (u & v & ->).
          exists u, v, (es2 ++ SLookup :: z). rewrite Ees.
          replace (x ++ SRegister :: y ++ SLookup :: z) with ((x ++ SRegister :: y) ++ SLookup :: z)
            by (rewrite <- app_assoc; reflexivity).
          rewrite Esp, <- !app_assoc. reflexivity.
        * exists es1, es2, z. rewrite Ees.
          replace (x ++ SRegister :: y ++ SLookup :: z) with ((x ++ SRegister :: y) ++ SLookup :: z)
            by (rewrite <- app_assoc; reflexivity).
          rewrite Esp, <- app_assoc. reflexivity.
        * intros Hne. destruct (payload_dec m') as [He|_]; [contradiction|].
          assert (Hinv : ret_inv (h ++ stored (x ++ SRegister :: y)) (store_of r3)).
          { replace r3 with (run (x ++ SRegister :: y) (race_init b)) by (rewrite run_app; reflexivity).
            apply run_store. exact Hb. }
          destruct (ret_inv_get _ _ f Hinv Hf) as (ts & _ & H2 & H3).
          assert (Hts : In t ts) by (apply H2; split; eauto).
          clear - H3 Hts Hra. induction H3 as [|t' g ts gs (m0 & Hm0 & ->) _ IH]; [contradiction|].
          destruct Hts as [->|Hts]; [|right; auto]. left.
          pose proof (retained_after_fun _ _ _ _ Hm0 Hra) as E. injection E as ->. reflexivity.
  Qed.
End Race.

(** ** A subscriber polling its stream *)

Definition op_topics (os : list broker_op) : Prop :=
  Forall (fun tm => Forall plain (levels (fst tm))) (published os).
Lemma matching_values_app {T} f (a b : list (bytes * T)) va vb :
  matching_values f a va -> matching_values f b vb -> matching_values f (a ++ b) (va ++ vb).
Proof. intros H. induction H; intros Hb; simpl; auto; constructor; auto. Qed.
Lemma matching_values_fun {T} f (a : list (bytes * T)) v : matching_values f a v ->
  forall v', matching_values f a v' -> v = v'.
Proof.
  intros H. induction H; intros v' H'; inversion H'; subst; auto; try contradiction. f_equal. auto.
Qed.
Lemma matching_values_total {T} f (a : list (bytes * T)) : exists v, matching_values f a v.
Proof.
  induction a as [|[t x] a [v IH]]; [exists []; constructor|].
  destruct (matches_dec f t); [exists (x :: v) | exists v]; constructor; auto.
Qed.
Lemma matching_values_app_inv {T} f (a b : list (bytes * T)) v : matching_values f (a ++ b) v ->
  exists va vb, v = va ++ vb /\ matching_values f a va /\ matching_values f b vb.
Proof.
  intros H. destruct (matching_values_total f a) as [va Ha], (matching_values_total f b) as [vb Hb].
  exists va, vb. repeat split; auto. eapply matching_values_fun; eauto. apply matching_values_app; auto.
Qed.

Lemma broker_step_node b o q : node_at q (bk_tree b) <> None -> node_at q (bk_tree (broker_step b o)) <> None.
Proof.
  intros H. destruct o; simpl; [apply node_at_subscribe; auto | apply route_node; auto].
Qed.

Lemma broker_step_log f b o : op_topics [o] -> node_at (levels f) (bk_tree b) <> None ->
  exists vs, matching_values f (published [o]) vs
    /\ log_at (levels f) (bk_tree (broker_step b o)) = log_at (levels f) (bk_tree b) ++ vs.
Proof.
  intros Hp Hn. destruct o as [g|t m]; simpl.
  - exists []. rewrite app_nil_r. split; [constructor|]. apply log_at_subscribe.
  - exists (if matches_dec f t then [m] else []). split.
    + destruct (matches_dec f t); [apply mv_take | apply mv_skip]; auto; constructor.
    + inversion Hp; subst. apply route_log; auto.
Qed.

Lemma op_topics_app a b : op_topics (a ++ b) <-> op_topics a /\ op_topics b.
Proof. unfold op_topics, published. rewrite flat_map_app. apply Forall_app. Qed.

Lemma broker_run_log f os : forall b, op_topics os -> node_at (levels f) (bk_tree b) <> None ->
  node_at (levels f) (bk_tree (broker_run os b)) <> None /\
  exists vs, matching_values f (published os) vs
    /\ log_at (levels f) (bk_tree (broker_run os b)) = log_at (levels f) (bk_tree b) ++ vs.
Proof.
  induction os as [|o os IH]; intros b Hp Hn.
  - split; auto. exists []. rewrite app_nil_r. split; [constructor|reflexivity].
  - change (o :: os) with ([o] ++ os) in *. apply op_topics_app in Hp. destruct Hp as [Hp1 Hp2].
    destruct (broker_step_log f b o Hp1 Hn) as (va & Ha & Ea).
    destruct (IH (broker_step b o) Hp2) as (Hn' & vb & Hb & Eb); [apply broker_step_node; auto|].
    split; [exact Hn'|]. exists (va ++ vb). split.
    + unfold published. rewrite flat_map_app. apply matching_values_app; auto.
    + change (broker_run ([o] ++ os) b) with (broker_run os (broker_step b o)).
      rewrite Eb, Ea, app_assoc. reflexivity.
Qed.

Section Sub.
  Variables (f : bytes) (b0 : broker).
  Let ret := mem_get_retained f (bk_store b0).
  Let log0 := log_at (levels f) (tree_subscribe (levels f) (bk_tree b0)).

  Definition sub_inv (vs : list message) (s : sub_sys) : Prop :=
    node_at (levels f) (bk_tree (sy_broker s)) <> None /\
    log_at (levels f) (bk_tree (sy_broker s)) = log0 ++ vs /\
    exists dn live k, dn ++ st_retained (sy_stream s) = ret /\ sy_out s = dn ++ live
      /\ st_next (sy_stream s) = (length log0 + k)%nat /\ (k <= length vs)%nat
      /\ (st_retained (sy_stream s) <> [] -> live = [] /\ k = O)
      /\ subseq live (firstn k vs).

  Lemma sub_inv_start : sub_inv [] (sub_start f b0).
  Proof.
    unfold sub_start. simpl. split; [|split]; simpl.
    - apply node_at_subscribe. right. exists []. rewrite app_nil_r. reflexivity.
    - rewrite app_nil_r. reflexivity.
    - exists [], [], O. rewrite Nat.add_0_r. repeat split; auto. constructor.
  Qed.

  Lemma sub_step_op vs s o : op_topics [o] -> sub_inv vs s ->
    exists ws, matching_values f (published [o]) ws /\ sub_inv (vs ++ ws) (sub_step f s (SOp o)).
  Proof.
    intros Hp (Hn & Hl & dn & live & k & H1 & H2 & H3 & H4 & H5 & H6).
    destruct (broker_step_log f _ o Hp Hn) as (ws & Hw & E). exists ws. split; auto.
    split; [|split]; simpl.
    - apply broker_step_node. exact Hn.
    - rewrite E, Hl, app_assoc. reflexivity.
    - exists dn, live, k. repeat split; auto.
      + rewrite app_length. lia.
      + apply H5; auto.
      + apply H5; auto.
      + rewrite firstn_app. replace (k - length vs)%nat with O by lia. simpl. rewrite app_nil_r. exact H6.
  Qed.

  Lemma sub_step_poll vs s : sub_inv vs s -> sub_inv vs (sub_step f s SPoll).
  Proof.
    intros Hinv. pose proof Hinv as (Hn & Hl & dn & live & k & H1 & H2 & H3 & H4 & H5 & H6).
    simpl. rewrite Hl. rewrite stream_next_eq. destruct (st_retained (sy_stream s)) as [|m ms] eqn:Er.
    - set (pos := Nat.max (st_next (sy_stream s)) (length (log0 ++ vs) - capacity)).
      destruct (nth_error (log0 ++ vs) pos) as [m|] eqn:E; [|exact Hinv].
      split; [exact Hn|split; [exact Hl|]]. simpl.
      assert (Hpos : (length log0 + k <= pos)%nat) by (unfold pos; rewrite H3; lia).
      assert (Hlt : (pos < length (log0 ++ vs))%nat) by (apply nth_error_Some; congruence).
      rewrite app_length in Hlt.
      exists dn, (live ++ [m]), (S (pos - length log0))%nat. repeat split; auto.
      + rewrite H2, app_assoc. reflexivity.
      + lia.
      + lia.
      + congruence.
      + congruence.
      + rewrite nth_error_app2 in E by lia. rewrite (firstn_S_nth _ _ _ E).
        apply subseq_app; [|apply subseq_refl].
        replace (firstn k vs) with (firstn k (firstn (pos - length log0) vs)) in H6
          by (rewrite firstn_firstn; f_equal; lia).
        eapply subseq_prefix_weaken. exact H6.
    - split; [exact Hn|split; [exact Hl|]]. simpl. destruct H5 as [-> ->]; [discriminate|].
      rewrite app_nil_r in H2. exists (dn ++ [m]), [], O. repeat split; auto.
      + rewrite <- app_assoc. exact H1.
      + rewrite app_nil_r, H2. reflexivity.
  Qed.

  Lemma sub_run_inv es : op_topics (ops_of es) ->
    exists vs, matching_values f (published (ops_of es)) vs /\ sub_inv vs (sub_run f es (sub_start f b0)).
  Proof.
    induction es as [|e es IH] using rev_ind; intros Hp.
    - exists []. split; [constructor | apply sub_inv_start].
    - unfold ops_of in *. rewrite flat_map_app in *. apply op_topics_app in Hp. destruct Hp as [Hp1 Hp2].
      destruct (IH Hp1) as (vs & Hm & Hi). unfold sub_run. rewrite fold_left_app. simpl fold_left.
      destruct e as [o|].
      + destruct (sub_step_op vs _ o Hp2 Hi) as (ws & Hw & Hi'). exists (vs ++ ws). split; auto.
        unfold published. rewrite flat_map_app. apply matching_values_app; auto.
      + exists vs. split; [|apply sub_step_poll; exact Hi]. simpl. rewrite app_nil_r. exact Hm.
  Qed.

  Lemma sub_in_order es : op_topics (ops_of es) ->
    exists dn rest live vs, ret = dn ++ rest /\ sy_out (sub_run f es (sub_start f b0)) = dn ++ live
      /\ (rest <> [] -> live = [])
      /\ matching_values f (published (ops_of es)) vs /\ subseq live vs.
  Proof.
    intros Hp. destruct (sub_run_inv es Hp) as (vs & Hm & _ & _ & dn & live & k & H1 & H2 & H3 & H4 & H5 & H6).
    exists dn, (st_retained (sy_stream (sub_run f es (sub_start f b0)))), live, vs.
    repeat split; auto. { intros H. apply H5. exact H. } eapply subseq_prefix_weaken. exact H6.
  Qed.

  Definition sub_lag_free es : Prop :=
    forall es1 es2 vs, es = es1 ++ es2 -> matching_values f (published (ops_of es1)) vs ->
      (length vs <= length (sy_out (sub_run f es1 (sub_start f b0))) - length ret + 16)%nat.

  Lemma sub_exact es : op_topics (ops_of es) -> sub_lag_free es ->
    exists vs, matching_values f (published (ops_of es)) vs
      /\ let s := sub_run f es (sub_start f b0) in
         sub_inv vs s /\ sy_out s = firstn (length (sy_out s)) (ret ++ vs)
         /\ (length (sy_out s) <= length (ret ++ vs))%nat
         /\ (st_next (sy_stream s) = length log0 + (length (sy_out s) - length ret))%nat
         /\ length (st_retained (sy_stream s)) = (length ret - length (sy_out s))%nat.
  Proof.
    induction es as [|e es IH] using rev_ind; intros Hp Hl.
    - exists []. split; [constructor|]. simpl. split; [apply sub_inv_start|].
      fold log0. fold ret. repeat split; auto; lia.
    - assert (Hl' : sub_lag_free es).
      { intros es1 es2 vs E. apply (Hl es1 (es2 ++ [e])). rewrite E, app_assoc. reflexivity. }
      unfold ops_of in *. rewrite flat_map_app in *. apply op_topics_app in Hp. destruct Hp as [Hp1 Hp2].
      destruct (IH Hp1 Hl') as (vs & Hm & Hi & Ho & Hle & Hx & Hr).
      pose proof (Hl es [e] vs eq_refl Hm) as Hlag.
      unfold sub_run in *. rewrite fold_left_app. simpl fold_left.
      set (s := fold_left (sub_step f) es (sub_start f b0)) in *. simpl in Hi.
      destruct e as [o|].
      + destruct (sub_step_op vs s o Hp2 Hi) as (ws & Hw & Hi'). exists (vs ++ ws). split.
        { unfold published. rewrite flat_map_app. apply matching_values_app; auto. }
        split; [exact Hi'|]. simpl. rewrite app_assoc. repeat split; auto.
        * rewrite firstn_app. replace (length (sy_out s) - length (ret ++ vs))%nat with O by lia.
          simpl. rewrite app_nil_r. exact Ho.
        * rewrite (app_length (ret ++ vs)). lia.
      + exists vs. split; [simpl; rewrite app_nil_r; exact Hm|]. split; [apply sub_step_poll; exact Hi|].
        pose proof Hi as (Hn & El & dn & live & k & H1 & H2 & H3 & H4 & H5 & H6).
        simpl. rewrite El. rewrite stream_next_eq. destruct (st_retained (sy_stream s)) as [|m ms] eqn:Er.
        * simpl in Hr. rewrite app_length in *. unfold capacity.
          rewrite Nat.max_l by lia.
          destruct (nth_error (log0 ++ vs) (st_next (sy_stream s))) as [m|] eqn:E.
          -- simpl. rewrite app_length. simpl length.
             assert (Hlt : (st_next (sy_stream s) < length (log0 ++ vs))%nat) by (apply nth_error_Some; congruence).
             rewrite app_length in Hlt.
             rewrite Nat.add_1_r. repeat split; try (rewrite ?app_length; lia).
             rewrite (firstn_S_nth _ _ m).
             ++ rewrite <- Ho. reflexivity.
             ++ rewrite nth_error_app2 in E |- * by lia. rewrite <- E. f_equal. lia.
          -- repeat split; auto; rewrite ?app_length, ?Er; simpl; auto.
        * simpl. rewrite app_length. simpl length. rewrite Nat.add_1_r. simpl in Hr.
          assert (Hd : (length dn + S (length ms) = length ret)%nat)
            by (rewrite <- H1, app_length; reflexivity).
          rewrite app_length in *. repeat split; try (rewrite ?app_length; lia).
          destruct H5 as [-> ->]; [discriminate|]. rewrite app_nil_r in H2.
          rewrite (firstn_S_nth _ _ m); [rewrite <- Ho; reflexivity|].
          rewrite nth_error_app1 by lia. rewrite <- H1, H2, nth_error_app2 by lia.
          rewrite Nat.sub_diag. reflexivity.
  Qed.

  Lemma sub_lossless es : op_topics (ops_of es) -> sub_lag_free es ->
    exists vs, matching_values f (published (ops_of es)) vs
      /\ let s := sub_run f es (sub_start f b0) in
         sy_out s = firstn (length (sy_out s)) (ret ++ vs)
         /\ (sub_step f s SPoll = s -> sy_out s = ret ++ vs).
  Proof.
    intros Hp Hl. destruct (sub_exact es Hp Hl) as (vs & Hm & Hi & Ho & Hle & Hx & Hr).
    exists vs. split; auto. simpl. set (s := sub_run f es (sub_start f b0)) in *. split; auto.
    intros Hs. rewrite Ho. apply firstn_all2.
    destruct Hi as (Hn & El & _). simpl in Hs. rewrite El in Hs. rewrite stream_next_eq in Hs.
    destruct (st_retained (sy_stream s)) as [|m ms] eqn:Er.
    - pose proof (Hl es [] vs (eq_sym (app_nil_r es)) Hm) as Hlag. fold s in Hlag.
      simpl in Hr. rewrite !app_length in *. unfold capacity in Hs. rewrite Nat.max_l in Hs by lia.
      destruct (nth_error (log0 ++ vs) (st_next (sy_stream s))) as [m|] eqn:E.
      + exfalso. apply (f_equal sy_out) in Hs. simpl in Hs. apply (f_equal (@length _)) in Hs.
        rewrite app_length in Hs. simpl in Hs. lia.
      + apply nth_error_None in E. rewrite app_length in E. lia.
    - exfalso. apply (f_equal sy_out) in Hs. simpl in Hs. apply (f_equal (@length _)) in Hs.
      rewrite app_length in Hs. simpl in Hs. lia.
  Qed.
End Sub.
