(** Proofs about Property.v. *)
From Verif Require Import Base Utf8 Codec SpecCodec Property SpecProperty Tac CodecFacts.

(** ** Round trip of one property *)

Lemma prop_id_small q : prop_id q <= 42.
Proof. destruct q; vm_compute; discriminate. Qed.

Lemma str_rt s r : wf_str s -> str_dec (str_enc s ++ r) = Ok (s, r).
Proof.
  intros [Hu Hl]. apply str_roundtrip; [lia|]. apply utf8_valid_iff, Hu.
Qed.
Lemma bin_rt d r : wf_bin d -> bin_dec (bin_enc d ++ r) = Ok (d, r).
Proof. intros [_ Hl]. apply bin_roundtrip; lia. Qed.

(** The identifier 0x19 is the only one that is decoded as another property. *)
Definition not_rri (q : property) : Prop :=
  match q with PRequestResponseInformation _ => False | _ => True end.

Lemma prop_val_roundtrip p q r :
  wf_prop q -> not_rri q -> prop_dec_with_id p (prop_id q) (prop_val_enc q ++ r) = Ok (q, r).
Proof.
  destruct q; cbn [wf_prop not_rri prop_id prop_val_enc prop_dec_with_id]; intros Hw Hn;
    try contradiction;
    try (unfold lift; first
      [ rewrite u16_roundtrip by exact Hw | rewrite u32_roundtrip by exact Hw
      | rewrite str_rt by exact Hw | rewrite bin_rt by exact Hw
      | rewrite bool_roundtrip | rewrite vbi_roundtrip by exact Hw ]; reflexivity).
  - reflexivity.
  - reflexivity.
  - reflexivity.
  - destruct Hw as [Hk Hv]. rewrite <- app_assoc, str_rt by exact Hk. cbn [bind].
    rewrite str_rt by exact Hv. reflexivity.
Qed.

Lemma prop_roundtrip p q r :
  wf_prop q -> not_rri q -> prop_dec p (prop_enc q ++ r) = Ok (q, r).
Proof.
  intros Hw Hn. unfold prop_enc, prop_dec. rewrite <- app_assoc, vbi_roundtrip.
  - cbn [bind]. apply prop_val_roundtrip; assumption.
  - pose proof (prop_id_small q). unfold vbi_max. lia.
Qed.

Lemma prop_rri_swapped p v r :
  prop_dec p (prop_enc (PRequestResponseInformation v) ++ r) = Ok (PRequestProblemInformation v, r).
Proof.
  unfold prop_enc, prop_dec. rewrite <- app_assoc, vbi_roundtrip by (vm_compute; discriminate).
  reflexivity.
Qed.

(** ** Sizes *)

Lemma prop_val_size_spec q :
  prop_val_size q = Ok (blen (prop_val_enc q)) \/
  (exists v, q = PSubscriptionIdentifier v /\ vbi_max < v /\ prop_val_size q = Panic).
Proof.
  destruct q; cbn [prop_val_size prop_val_enc];
    try (left; reflexivity);
    try (left; rewrite ?blen_app, ?blen_str_enc; reflexivity);
    try (left; rewrite blen_bin_enc; reflexivity).
  destruct (N.le_gt_cases v vbi_max) as [H|H].
  - left. apply vbi_size_spec, H.
  - right. exists v. rewrite vbi_size_panic by exact H. auto.
Qed.

Lemma prop_enc_nonempty q : 1 <= blen (prop_enc q).
Proof.
  unfold prop_enc. rewrite blen_app.
  pose proof (vbi_enc_len (prop_id q)). pose proof (prop_id_small q). unfold vbi_max in *. lia.
Qed.

Lemma prop_size_ok q n : prop_size q = Ok n -> n = blen (prop_enc q).
Proof.
  unfold prop_size, prop_enc. rewrite vbi_size_spec
    by (pose proof (prop_id_small q); unfold vbi_max; lia).
  cbn [bind]. rewrite blen_app.
  destruct (prop_val_size_spec q) as [->|(v & _ & _ & ->)]; cbn [bind]; congruence.
Qed.

Lemma prop_size_wf q : wf_prop q -> prop_size q = Ok (blen (prop_enc q)).
Proof.
  intros Hw. unfold prop_size, prop_enc. rewrite vbi_size_spec
    by (pose proof (prop_id_small q); unfold vbi_max; lia).
  cbn [bind]. rewrite blen_app.
  destruct (prop_val_size_spec q) as [->|(v & -> & Hv & _)]; [reflexivity|].
  cbn in Hw. lia.
Qed.

Lemma props_size_ok l n : props_size l = Ok n -> n = blen (props_enc l).
Proof.
  revert n. induction l as [|q l IH]; cbn [props_size props_enc flat_map]; intros n H.
  - inv H. reflexivity.
  - inv_bind H. inv_bind H. inv H. apply prop_size_ok in Ha. apply IH in Ha0.
    rewrite blen_app. unfold props_enc in *. congruence.
Qed.

Lemma props_size_wf l : Forall wf_prop l -> props_size l = Ok (blen (props_enc l)).
Proof.
  induction 1 as [|q l Hq _ IH]; cbn [props_size props_enc flat_map]; [reflexivity|].
  rewrite prop_size_wf by exact Hq. cbn [bind]. rewrite IH. cbn [bind].
  rewrite blen_app. reflexivity.
Qed.

Lemma props_size_not_err l e : props_size l <> Err e.
Proof.
  induction l as [|q l IH]; cbn [props_size]; [discriminate|].
  unfold prop_size. destruct (vbi_size (prop_id q)) eqn:E1; cbn [bind]; try discriminate.
  - destruct (prop_val_size_spec q) as [->|(v & _ & _ & ->)]; cbn [bind]; [|discriminate].
    destruct (props_size l); cbn [bind]; try discriminate. exact IH.
  - unfold vbi_size in E1. repeat (case_if; try discriminate).
Qed.

(** ** Property sets *)

(** Left fold in the option monad. *)
Fixpoint foldo {A} (step : A -> property -> option A) (acc : A) (l : list property) : option A :=
  match l with
  | [] => Some acc
  | q :: r => match step acc q with Some a => foldo step a r | None => None end
  end.

Lemma foldo_app {A} (step : A -> property -> option A) a l1 l2 :
  foldo step a (l1 ++ l2) = match foldo step a l1 with Some b => foldo step b l2 | None => None end.
Proof.
  revert a; induction l1 as [|q l1 IH]; intros a; cbn; [reflexivity|].
  destruct (step a q); [apply IH|reflexivity].
Qed.

Lemma foldo_olist {A B} (step : A -> property -> option A) (mk : option B -> A)
    (f : B -> property) (o : option B) l :
  (forall v, step (mk None) (f v) = Some (mk (Some v))) ->
  foldo step (mk None) (olist f o ++ l) = foldo step (mk o) l.
Proof. intros H. destruct o; cbn; [rewrite H|]; reflexivity. Qed.

Lemma foldo_ulist {A} (step : A -> property -> option A) (mk : option user_props -> A) o l :
  (forall u k v, step (mk u) (PUserProperty k v) = Some (mk (push_user u k v))) ->
  o <> Some [] ->
  foldo step (mk None) (ulist o ++ l) = foldo step (mk o) l.
Proof.
  intros H Hne. destruct o as [u|]; [|reflexivity].
  destruct u as [|[k v] u]; [congruence|]. clear Hne.
  cbn [ulist map app foldo fst snd]. rewrite H. cbn [push_user].
  change ((k, v) :: u) with ([(k, v)] ++ u). generalize [(k, v)] as pre.
  induction u as [|[k2 v2] u IH]; intros pre; cbn [map app foldo fst snd].
  - rewrite app_nil_r. reflexivity.
  - rewrite H. cbn [push_user]. rewrite IH, <- app_assoc. reflexivity.
Qed.

Lemma props_loop_enc {A} p (step : A -> property -> option A) l : forall fuel acc a,
  Forall wf_prop l -> Forall not_rri l ->
  foldo step acc l = Some a -> (length (props_enc l) <= fuel)%nat ->
  props_loop p step fuel acc (props_enc l) = Ok a.
Proof.
  induction l as [|q l IH]; intros fuel acc a Hw Hn Hf Hlen.
  - cbn in *. inv Hf. destruct fuel; reflexivity.
  - inv Hw. inv Hn. cbn [foldo] in Hf. destruct (step acc q) as [acc'|] eqn:Es; [|discriminate].
    pose proof (prop_enc_nonempty q) as Hne.
    cbn [props_enc flat_map] in *. rewrite app_length in Hlen.
    destruct fuel as [|fuel]; [unfold blen in Hne; lia|].
    destruct (prop_enc q ++ flat_map prop_enc l) as [|x t] eqn:Ex.
    { apply app_eq_nil in Ex. destruct Ex as [Ex _]. rewrite Ex in Hne. cbn in Hne. unfold blen in Hne; cbn in Hne; lia. }
    cbn [props_loop]. rewrite <- Ex, prop_roundtrip by assumption. cbn [bind]. rewrite Es.
    apply IH; try assumption. unfold blen in Hne. unfold props_enc in *. lia.
Qed.

(** A property set written with its length prefix decodes to the structure that the
    decoder's match builds from the written list. *)
Lemma props_dec_enc {A} p short (step : A -> property -> option A) dflt l a r :
  Forall wf_prop l -> Forall not_rri l ->
  foldo step dflt l = Some a -> blen (props_enc l) <= vbi_max ->
  props_dec p short step dflt (vbi_enc (blen (props_enc l)) ++ props_enc l ++ r) = Ok (a, r).
Proof.
  intros Hw Hn Hf Hmax. unfold props_dec. rewrite vbi_roundtrip by exact Hmax. cbn [bind].
  destruct (blen (props_enc l) =? 0) eqn:E0.
  - destruct l as [|q l].
    + cbn in *. congruence.
    + exfalso. cbn [props_enc flat_map] in E0. rewrite blen_app in E0.
      pose proof (prop_enc_nonempty q). lia.
  - rewrite blen_app. replace (blen (props_enc l) + blen r <? blen (props_enc l)) with false by lia.
    rewrite btake_app, bdrop_app.
    rewrite (props_loop_enc p step l _ _ a); [reflexivity|assumption..|].
    unfold blen. lia.
Qed.
