(** Proof tools shared by the proof files. *)
From Coq Require Export ZifyBool ZifyNat ZifyN.
From Verif Require Import Base.

Ltac Zify.zify_post_hook ::= Z.div_mod_to_equations.

Arguments N.add : simpl never.
Arguments N.mul : simpl never.
Arguments N.sub : simpl never.
Arguments N.div : simpl never.
Arguments N.modulo : simpl never.
Arguments N.ltb : simpl never.
Arguments N.leb : simpl never.
Arguments N.eqb : simpl never.
Arguments N.land : simpl never.
Arguments N.lor : simpl never.
Arguments N.shiftl : simpl never.
Arguments N.shiftr : simpl never.
Arguments N.of_nat : simpl never.
Arguments N.to_nat : simpl never.

(** All numbers below [n], for sweeps over finite domains. *)
Definition below (n : nat) : list N := map N.of_nat (seq 0 n).

Lemma below_spec n x : x < N.of_nat n -> In x (below n).
Proof.
  intros H. unfold below. apply in_map_iff. exists (N.to_nat x).
  split; [lia | apply in_seq; lia].
Qed.

Lemma sweep (n : nat) (f : N -> bool) :
  forallb f (below n) = true -> forall x, x < N.of_nat n -> f x = true.
Proof.
  intros H x Hx. rewrite forallb_forall in H. apply H, below_spec, Hx.
Qed.

(** Split one [if] or [match] in the goal or in a hypothesis, keeping the equation. *)
Ltac case_if :=
  match goal with
  | |- context [if ?b then _ else _] => destruct b eqn:?
  | H : context [if ?b then _ else _] |- _ => destruct b eqn:?
  end.
Ltac case_match :=
  match goal with
  | |- context [match ?x with _ => _ end] => destruct x eqn:?
  | H : context [match ?x with _ => _ end] |- _ => destruct x eqn:?
  end.
Ltac inv H := inversion H; subst; clear H.

Lemma bind_ok {A B} (r : res A) (f : A -> res B) b :
  bind r f = Ok b -> exists a, r = Ok a /\ f a = Ok b.
Proof. destruct r; simpl; intros H; try discriminate. eauto. Qed.

Lemma bind_not_panic {A B} (r : res A) (f : A -> res B) :
  r <> Panic -> (forall a, r = Ok a -> f a <> Panic) -> bind r f <> Panic.
Proof. destruct r; simpl; intros H1 H2; auto; discriminate. Qed.

Ltac inv_bind H :=
  let a := fresh "a" in let Ha := fresh "Ha" in
  apply bind_ok in H; destruct H as (a & Ha & H).

(** Lengths. *)
Lemma blen_nil {A} : blen (@nil A) = 0.
Proof. reflexivity. Qed.
Lemma blen_cons {A} (x : A) l : blen (x :: l) = 1 + blen l.
Proof. unfold blen; simpl length; lia. Qed.
Lemma blen_app {A} (a b : list A) : blen (a ++ b) = blen a + blen b.
Proof. unfold blen; rewrite app_length; lia. Qed.

Lemma btake_app {A} (a b : list A) : btake (blen a) (a ++ b) = a.
Proof.
  unfold btake, blen. rewrite Nat2N.id, firstn_app, Nat.sub_diag, firstn_all.
  simpl. apply app_nil_r.
Qed.
Lemma bdrop_app {A} (a b : list A) : bdrop (blen a) (a ++ b) = b.
Proof.
  unfold bdrop, blen. rewrite Nat2N.id, skipn_app, Nat.sub_diag, skipn_all.
  reflexivity.
Qed.
Lemma btake_bdrop {A} n (l : list A) : btake n l ++ bdrop n l = l.
Proof. apply firstn_skipn. Qed.
Lemma blen_btake {A} n (l : list A) : n <= blen l -> blen (btake n l) = n.
Proof. unfold blen, btake. intros H. rewrite firstn_length. lia. Qed.
Lemma blen_bdrop {A} n (l : list A) : blen (bdrop n l) = blen l - n.
Proof. unfold blen, bdrop. rewrite skipn_length. lia. Qed.

Lemma is_bytes_app a b : is_bytes (a ++ b) <-> is_bytes a /\ is_bytes b.
Proof. apply Forall_app. Qed.

(** Equality of two explicit lists of numbers. *)
Ltac list_lia :=
  simpl app;
  repeat (match goal with |- _ :: _ = _ :: _ => apply f_equal2; [lia|] end);
  try reflexivity.
