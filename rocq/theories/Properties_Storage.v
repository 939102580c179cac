(** Properties C51 and C52: the storage backends.
    Every theorem is followed by a concrete case meeting its hypotheses. *)
From Coq Require Import String Permutation.
From Verif Require Import Base Codec SpecCodec CodecFacts Str Maps Topic SpecTopic TopicFacts
  Storage SpecStorage StorageFacts.

(** Retained messages are looked up with valid filters (session.rs 386 validates them). *)
Definition valid_lookup (o : sop) : Prop :=
  match o with GetRetained f => topic_filter f | _ => True end.

Lemma valid_lookup_op o : valid_lookup o -> op_valid o.
Proof. destruct o; simpl; auto. apply topic_filter_ok. Qed.

(** ** C51 *)
Theorem C51_memory_store_is_maps os : Forall valid_lookup os ->
  spec_run no_maps os (fst (store_run mem_step os mem_new)).
Proof.
  intros H. destruct (store_run mem_step os mem_new) as [rs m] eqn:E.
  eapply mem_run_ok; [apply R_mem_new| |exact E].
  eapply Forall_impl; [|exact H]. apply valid_lookup_op.
Qed.
Print Assumptions C51_memory_store_is_maps.
(** The specification fixes every answer up to the order of listings. *)
Theorem C51_spec_unique s os rs rs' : spec_run s os rs -> spec_run s os rs' -> Forall2 res_equiv rs rs'.
Proof. exact (spec_run_equiv s os rs rs'). Qed.
Print Assumptions C51_spec_unique.
Definition ex_inflight (p : N) : inflight := Mk_inflight p (str "t") (Some (str "x")) AtLeastOnce false.
Example C51_ex :
  fst (store_run mem_step
    [StoreInflight (str "c") 1 (ex_inflight 1); StoreInflight (str "d") 1 (ex_inflight 9);
     RemoveInflight (str "d") 1; GetInflight (str "c") 1; GetAllInflight (str "d");
     StoreWill (str "c") (Mk_will (str "w") [1] AtMostOnce false); DeleteSession (str "c"); GetWill (str "c")] mem_new)
  = [RUnit; RUnit; RUnit; RInflight (Some (ex_inflight 1)); RInflights []; RUnit; RUnit;
     RWill (Some (Mk_will (str "w") [1] AtMostOnce false))]
  /\ Forall valid_lookup [StoreInflight (str "c") 1 (ex_inflight 1); GetAllInflight (str "d")].
Proof. split; [vm_compute; reflexivity | repeat constructor]. Qed.

(** ** C52: operations on which the two stores can agree. A session's filters contain no
    comma and are not the single empty string; records carry the key they are stored
    under; a retained message has no packet identifier. *)
Definition portable (o : sop) : Prop :=
  valid_lookup o /\
  match o with
  | SaveSession c st =>
      ss_client_id st = c /\ ss_subscriptions st <> [[]] /\ Forall (fun s => ~ In 44 s) (ss_subscriptions st)
  | StoreRetained t (Some g) => mg_topic g = t /\ mg_packet_id g = None
  | StoreInflight c p i => if_packet_id i = p
  | _ => True
  end.

Theorem C52_sqlite_like_memory_partial os : Forall portable os ->
  Forall2 res_equiv (fst (store_run sql_step os sql_new)) (fst (store_run mem_step os mem_new)).
Proof.
  intros H. destruct (store_run sql_step os sql_new) as [rs m] eqn:E.
  assert (Hn : map sql_norm os = os).
  { clear E. induction H as [|o os [_ Ho] _ IH]; simpl; auto. f_equal; auto.
    destruct o; simpl in *; auto.
    - destruct Ho as [<- _]. destruct st; reflexivity.
    - destruct m0 as [[]|]; simpl in *; auto. destruct Ho as [<- ->]. reflexivity.
    - subst. destruct i; reflexivity. }
  eapply spec_run_equiv; [|apply C51_memory_store_is_maps].
  - rewrite <- Hn. eapply sql_run_ok; [apply R_sql_new| |exact E].
    eapply Forall_impl; [|exact H]. intros o [Hv Ho]. split; [apply valid_lookup_op, Hv|].
    destruct o; simpl in *; auto. split; apply Ho.
  - eapply Forall_impl; [|exact H]. intros o [Hv _]. exact Hv.
Qed.
Print Assumptions C52_sqlite_like_memory_partial.
(** More generally the SQLite store answers like the memory store given the operations
    [as_rows]: keys replace the fields they are stored under, and the packet identifier
    of retained messages is dropped. *)
Definition as_rows (o : sop) : sop :=
  match o with
  | SaveSession c st => SaveSession c (Mk_session_state c (ss_subscriptions st) (ss_clean_start st))
  | StoreRetained t (Some g) =>
      StoreRetained t (Some (Mk_message None t (mg_dup g) (mg_qos g) (mg_retain g) (mg_payload g)))
  | StoreInflight c p i =>
      StoreInflight c p (Mk_inflight p (if_topic i) (if_payload i) (if_qos i) (if_dup i))
  | _ => o
  end.
Definition no_commas (o : sop) : Prop :=
  match o with
  | SaveSession c st => ss_subscriptions st <> [[]] /\ Forall (fun s => ~ In 44 s) (ss_subscriptions st)
  | _ => True
  end.
Theorem C52_sqlite_rows_partial os : Forall valid_lookup os -> Forall no_commas os ->
  Forall2 res_equiv (fst (store_run sql_step os sql_new)) (fst (store_run mem_step (map as_rows os) mem_new)).
Proof.
  intros Hv Hc. destruct (store_run sql_step os sql_new) as [rs m] eqn:E.
  eapply spec_run_equiv; [|apply C51_memory_store_is_maps].
  - replace (map as_rows os) with (map sql_norm os) by (apply map_ext; intros []; auto).
    eapply sql_run_ok; [apply R_sql_new| |exact E].
    clear E. induction Hv as [|o os Ho _ IH]; inversion Hc; subst; constructor; auto.
    split; [apply valid_lookup_op, Ho|]. destruct o; simpl in *; auto.
  - clear E. induction Hv as [|o os Ho _ IH]; inversion Hc; subst; simpl; constructor; auto.
    destruct o; simpl in *; auto. destruct m0; exact I.
Qed.
Print Assumptions C52_sqlite_rows_partial.
Definition ex_ops : list sop :=
  [SaveSession (str "c") (Mk_session_state (str "c") [str "a/+"; str "b"] false); LoadSession (str "c");
   StoreRetained (str "a/x") (Some (Mk_message None (str "a/x") false AtLeastOnce false (Some [1])));
   GetRetained (str "a/+"); StoreInflight (str "c") 7 (ex_inflight 7); GetAllInflight (str "c")].
Example C52_ex : Forall portable ex_ops /\
  fst (store_run sql_step ex_ops sql_new) = fst (store_run mem_step ex_ops mem_new).
Proof.
  split; [|vm_compute; reflexivity].
  repeat constructor; simpl; try discriminate; try (intuition discriminate).
  apply subscribe_filter_iff; [apply utf8_valid_iff|]; vm_compute; reflexivity.
Qed.
(** A filter containing a comma comes back split, and a retained QoS 1 message loses its
    packet identifier. *)
Theorem C52_sqlite_like_memory_refuted :
  (exists f os, topic_filter f /\ os = [SaveSession (str "c") (Mk_session_state (str "c") [f] false); LoadSession (str "c")] /\
     fst (store_run mem_step os mem_new) = [RUnit; RSession (Some (Mk_session_state (str "c") [f] false))] /\
     fst (store_run sql_step os sql_new) = [RUnit; RSession (Some (Mk_session_state (str "c") [str "a"; str "b"] false))]) /\
  (exists m os, os = [StoreRetained (str "t") (Some m); GetRetained (str "t")] /\ mg_packet_id m = Some 5 /\
     fst (store_run mem_step os mem_new) = [RUnit; RMessages [with_retain true m]] /\
     fst (store_run sql_step os sql_new) <> fst (store_run mem_step os mem_new)).
Proof.
  split.
  - exists (str "a,b"). eexists. split; [|split; [reflexivity|split; vm_compute; reflexivity]].
    apply subscribe_filter_iff; [apply utf8_valid_iff|]; vm_compute; reflexivity.
  - exists (Mk_message (Some 5) (str "t") false AtLeastOnce true (Some [1])). eexists.
    split; [reflexivity|]. split; [reflexivity|]. split; [vm_compute; reflexivity|]. vm_compute. discriminate.
Qed.
Print Assumptions C52_sqlite_like_memory_refuted.
