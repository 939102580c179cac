(** Facts about cancelled reads. *)
From Verif Require Import Base Codec Tac Packets Frame FrameFacts Maps Session Server SpecServer Listener SpecListener.

Lemma server_poll_read p ins : forall buf, match server_poll p buf ins with
  | (Some out, buf', is) => server_read p buf (arrived ins) = (out, buf', arrived is)
  | (None, buf', is) => server_read p buf (arrived ins) = server_read p buf' (arrived is)
  end.
Proof.
  induction ins as [|[c|] ins IH]; intros buf.
  - cbn [server_poll arrived server_read]. destruct (parse_packet p buf) as [[[k|] r]| |]; reflexivity.
  - cbn [server_poll arrived]. cbn [server_read]. destruct (parse_packet p buf) as [[[k|] r]|e|]; try reflexivity.
    destruct c as [|b c]; [reflexivity|]. apply IH.
  - cbn [server_poll arrived]. destruct (parse_packet p buf) as [[[k|] r]|e|] eqn:E.
    + cbn [arrived]; destruct (arrived ins); cbn [server_read]; rewrite E; reflexivity.
    + reflexivity.
    + cbn [arrived]; destruct (arrived ins); cbn [server_read]; rewrite E; reflexivity.
    + cbn [arrived]; destruct (arrived ins); cbn [server_read]; rewrite E; reflexivity.
Qed.
Lemma server_polls_reads p buf ins ks out : server_polls p buf ins ks out -> server_reads p buf (arrived ins) ks out.
Proof.
  induction 1 as [buf ins out buf' is H Hn|buf ins k buf' is ks out H _ IH|buf ins buf' is ks out H _ IH|buf is ks out _ IH].
  - pose proof (server_poll_read p ins buf) as Hr. rewrite H in Hr. eapply sreads_end; eauto.
  - pose proof (server_poll_read p ins buf) as Hr. rewrite H in Hr. eapply sreads_packet; eauto.
  - pose proof (server_poll_read p ins buf) as Hr. rewrite H in Hr.
    inversion IH as [b1 c1 o1 b2 c2 H1 H2|b1 c1 k1 b2 c2 ks1 o1 H1 H2]; subst.
    + eapply sreads_end; [rewrite Hr; exact H1|exact H2].
    + eapply sreads_packet; [rewrite Hr; exact H1|exact H2].
  - exact IH.
Qed.
(** What is in the buffer already does not depend on what comes. *)
Lemma server_polls_ready p buf ins ks out : server_polls p buf ins ks out ->
  match parse_packet p buf with
  | Ok (Some k, r) => exists ks', ks = k :: ks' /\ server_polls p r ins ks' out
  | Ok (None, _) => True
  | Err e => ks = [] /\ out = RError e
  | Panic => ks = [] /\ out = RPanic
  end.
Proof.
  induction 1 as [buf ins out buf' is H Hn|buf ins k buf' is ks out H Hs _|buf ins buf' is ks out H Hs _|buf is ks out _ IH].
  - destruct ins as [|i ins]; cbn [server_poll] in H; destruct (parse_packet p buf) as [[[k|] r]|e|]; auto;
      try (injection H as <- _ _; solve [auto | exfalso; eapply Hn; reflexivity]).
  - destruct ins as [|i ins]; cbn [server_poll] in H; destruct (parse_packet p buf) as [[[k1|] r]|e|]; auto;
      try discriminate; injection H as <- <- <-; eauto.
  - destruct ins as [|i ins]; cbn [server_poll] in H; destruct (parse_packet p buf) as [[[k1|] r]|e|]; auto; discriminate.
  - destruct (parse_packet p buf) as [[[k1|] r]|e|]; auto. destruct IH as (ks' & -> & H). exists ks'. split; auto. apply sp_skipped, H.
Qed.
Lemma server_polls_more p buf c r is ks out : parse_packet p buf = Ok (None, r) -> c <> [] ->
  server_polls p (buf ++ c) is ks out -> server_polls p buf (Chunk c :: is) ks out.
Proof.
  intros He Hc H. destruct c as [|b c]; [congruence|].
  assert (Hp : server_poll p buf (Chunk (b :: c) :: is) = server_poll p (buf ++ b :: c) is) by (cbn [server_poll]; rewrite He; reflexivity).
  pose proof (server_polls_ready p _ _ _ _ H) as Hr.
  inversion H as [b1 c1 o1 b2 c2 H1 H2|b1 c1 k1 b2 c2 ks1 o1 H1 H2|b1 c1 b2 c2 ks1 o1 H1 H2|b1 is' ks1 o1 H1]; subst.
  - eapply sp_end; [rewrite Hp; exact H1|exact H2].
  - eapply sp_packet; [rewrite Hp; exact H1|exact H2].
  - eapply sp_dropped; [rewrite Hp; exact H1|exact H2].
  - destruct (parse_packet p (buf ++ b :: c)) as [[[k|] x]|e|] eqn:E.
    + destruct Hr as (ks' & -> & Hr). eapply sp_packet; [rewrite Hp; cbn [server_poll]; rewrite E; reflexivity|exact Hr].
    + eapply sp_dropped; [rewrite Hp; cbn [server_poll]; rewrite E; reflexivity|exact H1].
    + destruct Hr as [-> ->]. eapply sp_end; [rewrite Hp; cbn [server_poll]; rewrite E; reflexivity|discriminate].
    + destruct Hr as [-> ->]. eapply sp_end; [rewrite Hp; cbn [server_poll]; rewrite E; reflexivity|discriminate].
Qed.
Lemma server_reads_polls p buf cs ks out : server_reads p buf cs ks out -> forall ins, cs = arrived ins -> server_polls p buf ins ks out.
Proof.
  induction 1 as [buf cs out buf' cs' H Hn|buf cs k buf' cs' ks out H _ IH]; intros ins ->.
  - revert buf H. induction ins as [|[c|] ins IHi]; intros buf H.
    + cbn [arrived server_read] in H. destruct (parse_packet p buf) as [[[k|] x]|e|] eqn:E; injection H as <- <- <-;
        eapply sp_end; try exact Hn; cbn [server_poll]; rewrite E; reflexivity.
    + cbn [arrived server_read] in H. destruct (parse_packet p buf) as [[[k|] x]|e|] eqn:E;
        try (injection H as <- <- <-; eapply sp_end; [cbn [server_poll]; rewrite E; reflexivity|exact Hn]).
      destruct c as [|b c]; [injection H as <- <- <-; eapply sp_end; [cbn [server_poll]; rewrite E; reflexivity|exact Hn]|].
      eapply server_polls_more; [exact E|discriminate|]. apply IHi, H.
    + apply sp_skipped, IHi, H.
  - revert buf H. induction ins as [|[c|] ins IHi]; intros buf H.
    + cbn [arrived server_read] in H. destruct (parse_packet p buf) as [[[k1|] x]|e|] eqn:E; try discriminate.
      * injection H as <- <- <-. eapply sp_packet; [cbn [server_poll]; rewrite E; reflexivity|apply IH; reflexivity].
      * unfold server_eof in H; destruct buf; discriminate.
    + cbn [arrived server_read] in H. destruct (parse_packet p buf) as [[[k1|] x]|e|] eqn:E; try discriminate.
      * injection H as <- <- <-. eapply sp_packet; [cbn [server_poll]; rewrite E; reflexivity|apply IH; reflexivity].
      * destruct c as [|b c]; [unfold server_eof in H; destruct buf; discriminate|]. eapply server_polls_more; [exact E|discriminate|]. apply IHi, H.
    + apply sp_skipped, IHi, H.
Qed.
Lemma client_poll_read p v ins : forall buf, match client_poll p v buf ins with
  | (Some out, buf', is) => client_read p v buf (arrived ins) = (out, buf', arrived is)
  | (None, buf', is) => client_read p v buf (arrived ins) = client_read p v buf' (arrived is)
  end.
Proof.
  induction ins as [|[c|] ins IH]; intros buf.
  - cbn [client_poll arrived client_read]. destruct (client_try p v buf) as [[[k|] r]| |]; reflexivity.
  - cbn [client_poll arrived]. cbn [client_read]. destruct (client_try p v buf) as [[[k|] r]|e|]; try reflexivity.
    destruct c as [|b c]; [reflexivity|]. apply IH.
  - cbn [client_poll arrived]. destruct (client_try p v buf) as [[[k|] r]|e|] eqn:E.
    + cbn [arrived]; destruct (arrived ins); cbn [client_read]; rewrite E; reflexivity.
    + reflexivity.
    + cbn [arrived]; destruct (arrived ins); cbn [client_read]; rewrite E; reflexivity.
    + cbn [arrived]; destruct (arrived ins); cbn [client_read]; rewrite E; reflexivity.
Qed.
Lemma client_polls_reads p v buf ins ks out : client_polls p v buf ins ks out -> client_reads p v buf (arrived ins) ks out.
Proof.
  induction 1 as [buf ins out buf' is H Hn|buf ins k buf' is ks out H _ IH|buf ins buf' is ks out H _ IH|buf is ks out _ IH].
  - pose proof (client_poll_read p v ins buf) as Hr. rewrite H in Hr. eapply creads_end; eauto.
  - pose proof (client_poll_read p v ins buf) as Hr. rewrite H in Hr. eapply creads_packet; eauto.
  - pose proof (client_poll_read p v ins buf) as Hr. rewrite H in Hr.
    inversion IH as [b1 c1 o1 b2 c2 H1 H2|b1 c1 k1 b2 c2 ks1 o1 H1 H2]; subst.
    + eapply creads_end; [rewrite Hr; exact H1|exact H2].
    + eapply creads_packet; [rewrite Hr; exact H1|exact H2].
  - exact IH.
Qed.
(** What is in the buffer already does not depend on what comes. *)
Lemma client_polls_ready p v buf ins ks out : client_polls p v buf ins ks out ->
  match client_try p v buf with
  | Ok (Some k, r) => exists ks', ks = k :: ks' /\ client_polls p v r ins ks' out
  | Ok (None, _) => True
  | Err e => ks = [] /\ out = RError e
  | Panic => ks = [] /\ out = RPanic
  end.
Proof.
  induction 1 as [buf ins out buf' is H Hn|buf ins k buf' is ks out H Hs _|buf ins buf' is ks out H Hs _|buf is ks out _ IH].
  - destruct ins as [|i ins]; cbn [client_poll] in H; destruct (client_try p v buf) as [[[k|] r]|e|]; auto;
      try (injection H as <- _ _; solve [auto | exfalso; eapply Hn; reflexivity]).
  - destruct ins as [|i ins]; cbn [client_poll] in H; destruct (client_try p v buf) as [[[k1|] r]|e|]; auto;
      try discriminate; injection H as <- <- <-; eauto.
  - destruct ins as [|i ins]; cbn [client_poll] in H; destruct (client_try p v buf) as [[[k1|] r]|e|]; auto; discriminate.
  - destruct (client_try p v buf) as [[[k1|] r]|e|]; auto. destruct IH as (ks' & -> & H). exists ks'. split; auto. apply cp_skipped, H.
Qed.
Lemma client_polls_more p v buf c r is ks out : client_try p v buf = Ok (None, r) -> c <> [] ->
  client_polls p v (buf ++ c) is ks out -> client_polls p v buf (Chunk c :: is) ks out.
Proof.
  intros He Hc H. destruct c as [|b c]; [congruence|].
  assert (Hp : client_poll p v buf (Chunk (b :: c) :: is) = client_poll p v (buf ++ b :: c) is) by (cbn [client_poll]; rewrite He; reflexivity).
  pose proof (client_polls_ready p v _ _ _ _ H) as Hr.
  inversion H as [b1 c1 o1 b2 c2 H1 H2|b1 c1 k1 b2 c2 ks1 o1 H1 H2|b1 c1 b2 c2 ks1 o1 H1 H2|b1 is' ks1 o1 H1]; subst.
  - eapply cp_end; [rewrite Hp; exact H1|exact H2].
  - eapply cp_packet; [rewrite Hp; exact H1|exact H2].
  - eapply cp_dropped; [rewrite Hp; exact H1|exact H2].
  - destruct (client_try p v (buf ++ b :: c)) as [[[k|] x]|e|] eqn:E.
    + destruct Hr as (ks' & -> & Hr). eapply cp_packet; [rewrite Hp; cbn [client_poll]; rewrite E; reflexivity|exact Hr].
    + eapply cp_dropped; [rewrite Hp; cbn [client_poll]; rewrite E; reflexivity|exact H1].
    + destruct Hr as [-> ->]. eapply cp_end; [rewrite Hp; cbn [client_poll]; rewrite E; reflexivity|discriminate].
    + destruct Hr as [-> ->]. eapply cp_end; [rewrite Hp; cbn [client_poll]; rewrite E; reflexivity|discriminate].
Qed.
Lemma client_reads_polls p v buf cs ks out : client_reads p v buf cs ks out -> forall ins, cs = arrived ins -> client_polls p v buf ins ks out.
Proof.
  induction 1 as [buf cs out buf' cs' H Hn|buf cs k buf' cs' ks out H _ IH]; intros ins ->.
  - revert buf H. induction ins as [|[c|] ins IHi]; intros buf H.
    + cbn [arrived client_read] in H. destruct (client_try p v buf) as [[[k|] x]|e|] eqn:E; injection H as <- <- <-;
        eapply cp_end; try exact Hn; cbn [client_poll]; rewrite E; reflexivity.
    + cbn [arrived client_read] in H. destruct (client_try p v buf) as [[[k|] x]|e|] eqn:E;
        try (injection H as <- <- <-; eapply cp_end; [cbn [client_poll]; rewrite E; reflexivity|exact Hn]).
      destruct c as [|b c]; [injection H as <- <- <-; eapply cp_end; [cbn [client_poll]; rewrite E; reflexivity|exact Hn]|].
      eapply client_polls_more; [exact E|discriminate|]. apply IHi, H.
    + apply cp_skipped, IHi, H.
  - revert buf H. induction ins as [|[c|] ins IHi]; intros buf H.
    + cbn [arrived client_read] in H. destruct (client_try p v buf) as [[[k1|] x]|e|] eqn:E; try discriminate.
      injection H as <- <- <-. eapply cp_packet; [cbn [client_poll]; rewrite E; reflexivity|apply IH; reflexivity].
    + cbn [arrived client_read] in H. destruct (client_try p v buf) as [[[k1|] x]|e|] eqn:E; try discriminate.
      * injection H as <- <- <-. eapply cp_packet; [cbn [client_poll]; rewrite E; reflexivity|apply IH; reflexivity].
      * destruct c as [|b c]; [discriminate|]. eapply client_polls_more; [exact E|discriminate|]. apply IHi, H.
    + apply cp_skipped, IHi, H.
Qed.
