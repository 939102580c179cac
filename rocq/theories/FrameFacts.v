(** Proofs about Frame.v: completeness check, chunk independence, the ping defect. *)
From Verif Require Import Base Utf8 Codec SpecCodec Property SpecProperty PacketProps Packets
  SpecPackets Frame Tac CodecFacts PropertyFacts PacketPropsFacts PacketsFacts PacketsRoundtrip
  ParseFacts PacketsDefects.

(** ** Variable byte integers are determined by value and length *)

Lemma vbi_denotes_nonempty bs n : vbi_denotes bs n -> bs <> [].
Proof. destruct 1; discriminate. Qed.

Lemma vbi_denotes_unique a : forall b n,
  vbi_denotes a n -> vbi_denotes b n -> blen a = blen b -> a = b.
Proof.
  induction a as [|x a IH]; intros b n Ha Hb Hl; [inv Ha|].
  destruct b as [|y b]; [inv Hb|].
  rewrite !blen_cons in Hl. inv Ha; inv Hb.
  - reflexivity.
  - match goal with H : vbi_denotes b _ |- _ => apply vbi_denotes_nonempty in H end.
    destruct b; [congruence|]. rewrite blen_cons, blen_nil in Hl. lia.
  - match goal with H : vbi_denotes a _ |- _ => apply vbi_denotes_nonempty in H end.
    destruct a; [congruence|]. rewrite blen_cons, blen_nil in Hl. lia.
  - match goal with H1 : vbi_denotes a ?m, H2 : vbi_denotes b ?m' |- _ =>
      assert (m = m') by lia; assert (x = y) by lia; subst end.
    f_equal. eapply IH; [eassumption..|lia].
Qed.

Lemma vbi_denotes_max len n : vbi_denotes len n -> blen len <= 4 -> n <= vbi_max.
Proof.
  intros H Hl. apply vbi_denotes_bound in H.
  assert (128 ^ blen len <= 128 ^ 4) by (apply N.pow_le_mono_r; lia).
  change (128 ^ 4) with 268435456 in *. unfold vbi_max. lia.
Qed.

Lemma min_len len n :
  vbi_denotes len n -> blen len <= 4 -> (forall l, vbi_denotes l n -> blen len <= blen l) ->
  len = vbi_enc n /\ n <= vbi_max.
Proof.
  intros Hd Hl Hmin. pose proof (vbi_denotes_max _ _ Hd Hl) as Hm. split; [|exact Hm].
  eapply vbi_denotes_unique; [exact Hd|apply vbi_enc_denotes, Hm|].
  pose proof (vbi_enc_minimal _ _ Hm Hd). pose proof (Hmin _ (vbi_enc_denotes _ Hm)). lia.
Qed.

Lemma min_frame_eq bs :
  is_min_frame bs -> exists h body, bs = h :: vbi_enc (blen body) ++ body /\ blen body <= vbi_max.
Proof.
  intros (h & len & body & -> & Hd & Hl & Hmin).
  destruct (min_len _ _ Hd Hl Hmin) as [-> Hm]. eauto.
Qed.

(** ** The completeness check *)

Lemma vbi_enc_cont n : n <= vbi_max -> forall pre suf, vbi_enc n = pre ++ suf -> suf <> [] ->
  Forall (fun b => 128 <= b < 256) pre.
Proof.
  unfold vbi_max. intros H pre suf E Hne.
  assert (Hshort : forall l : bytes, vbi_enc n = l -> Forall (fun b => 128 <= b < 256) (removelast l)).
  { intros l <-.
    destruct (n <=? 127) eqn:?; [rewrite vbi_enc_1 by lia; repeat constructor; lia|].
    destruct (n <=? 16383) eqn:?; [rewrite vbi_enc_2 by lia; repeat constructor; lia|].
    destruct (n <=? 2097151) eqn:?; [rewrite vbi_enc_3 by lia; repeat constructor; lia|].
    rewrite vbi_enc_4 by lia; repeat constructor; lia. }
  specialize (Hshort _ E). rewrite removelast_app in Hshort by exact Hne.
  apply Forall_app in Hshort. tauto.
Qed.

Lemma vbi_dec_short p pre :
  Forall (fun b => 128 <= b < 256) pre -> blen pre <= 3 -> vbi_dec p pre = Err PacketIncomplete.
Proof.
  intros H Hl. rewrite vbi_dec_spec by (eapply Forall_impl; [|exact H]; unfold is_byte; cbn; lia).
  unfold vbi_spec.
  destruct pre as [|a pre]; [reflexivity|]. inv H.
  destruct pre as [|b pre].
  { replace (a <? 128) with false by lia. reflexivity. }
  inv H3. destruct pre as [|c pre].
  { replace (a <? 128) with false by lia. replace (b <? 128) with false by lia. reflexivity. }
  inv H4. destruct pre as [|d pre].
  { replace (a <? 128) with false by lia. replace (b <? 128) with false by lia.
    replace (c <? 128) with false by lia. reflexivity. }
  rewrite !blen_cons in Hl. lia.
Qed.

Lemma check_full p h n rest :
  n <= vbi_max ->
  check p (h :: vbi_enc n ++ rest) = if n <=? blen rest then Ok tt else Err PacketIncomplete.
Proof.
  intros Hn. unfold check. pose proof (vbi_enc_len _ Hn) as Hl.
  rewrite blen_cons, blen_app.
  replace (1 + (blen (vbi_enc n) + blen rest) <? 2) with false by lia.
  change (bdrop 1 (h :: vbi_enc n ++ rest)) with (vbi_enc n ++ rest).
  rewrite vbi_roundtrip by exact Hn. cbn [bind]. rewrite vbi_size_spec by exact Hn. cbn [bind].
  unfold usize_sub at 1. replace (blen (vbi_enc n) <=? 1 + (blen (vbi_enc n) + blen rest)) with true by lia.
  cbn [bind]. unfold usize_sub.
  replace (1 <=? 1 + (blen (vbi_enc n) + blen rest) - blen (vbi_enc n)) with true by lia.
  cbn [bind].
  replace (1 + (blen (vbi_enc n) + blen rest) - blen (vbi_enc n) - 1) with (blen rest) by lia.
  reflexivity.
Qed.

Lemma check_complete p frame rest : is_min_frame frame -> check p (frame ++ rest) = Ok tt.
Proof.
  intros H. apply min_frame_eq in H. destruct H as (h & body & -> & Hm).
  cbn [app]. rewrite <- app_assoc, check_full by exact Hm.
  replace (blen body <=? blen (body ++ rest)) with true by (rewrite blen_app; lia). reflexivity.
Qed.

Lemma app_split {A} (a b c d : list A) :
  a ++ b = c ++ d -> (length a <= length c)%nat -> exists m, c = a ++ m /\ b = m ++ d.
Proof.
  revert c; induction a as [|x a IH]; intros c E Hl; cbn in *.
  - eauto.
  - destruct c as [|y c]; cbn in *; [lia|]. inv E. destruct (IH c H1 ltac:(lia)) as (m & -> & ->). eauto.
Qed.

Lemma check_incomplete p frame pre suf :
  is_min_frame frame -> frame = pre ++ suf -> suf <> [] -> check p pre = Err PacketIncomplete.
Proof.
  intros H E Hne. apply min_frame_eq in H. destruct H as (h & body & -> & Hm).
  destruct pre as [|x pre]; [reflexivity|]. cbn [app] in E.
  assert (Hx : h = x) by congruence. assert (H1 : vbi_enc (blen body) ++ body = pre ++ suf) by congruence.
  subst h. clear E.
  destruct (Nat.le_gt_cases (length (vbi_enc (blen body))) (length pre)) as [Hle|Hgt].
  - destruct (app_split _ _ _ _ H1 Hle) as (m & -> & ->).
    rewrite check_full by (rewrite blen_app in *; exact Hm).
    destruct suf; [congruence|]. rewrite blen_app, blen_cons.
    replace (blen m + (1 + blen suf) <=? blen m) with false by lia. reflexivity.
  - symmetry in H1. destruct (app_split _ _ _ _ H1 ltac:(lia)) as (m & Em & Es).
    assert (Hmne : m <> []) by (intros ->; rewrite app_nil_r in Em; rewrite Em in Hgt; lia).
    pose proof (vbi_enc_cont _ Hm _ _ Em Hmne) as Hc.
    pose proof (vbi_enc_len _ Hm) as Hl.
    assert (blen pre <= 3).
    { rewrite Em, blen_app in Hl. destruct m; [congruence|]. rewrite blen_cons in Hl. lia. }
    unfold check. rewrite blen_cons.
    destruct (1 + blen pre <? 2) eqn:E2; [reflexivity|].
    change (bdrop 1 (x :: pre)) with pre. rewrite vbi_dec_short by assumption. reflexivity.
Qed.

Lemma packet_min_frame k bs : packet_enc k = Ok bs -> blen bs <= max_frame -> is_min_frame bs.
Proof.
  intros H Hmax. destruct (packet_framed _ _ H) as (h & body & Hf).
  destruct (framed_small _ _ _ Hf Hmax) as [Hb ->].
  exists h, (vbi_enc (blen body)), body. repeat split.
  - apply vbi_enc_denotes, Hb.
  - apply vbi_enc_len, Hb.
  - intros l Hd. apply vbi_enc_minimal; assumption.
Qed.

(** ** Server framing *)

(** Packet [k] and its encoding [bs], as sent by a peer. *)
Definition sent (k : packet) (bs : bytes) : Prop :=
  packet_enc k = Ok bs /\ blen bs <= max_frame /\ wf_packet k /\ roundtrippable k.

Lemma server_read_step p buf chunks :
  server_read p buf chunks =
  match parse_packet p buf with
  | Ok (Some k, r) => (RPacket k, r, chunks)
  | Ok (None, _) =>
      match chunks with
      | [] => (server_eof buf, buf, [])
      | [] :: cs => (server_eof buf, buf, cs)
      | c :: cs => server_read p (buf ++ c) cs
      end
  | Err e => (RError e, buf, chunks)
  | Panic => (RPanic, buf, chunks)
  end.
Proof. destruct chunks; reflexivity. Qed.

Lemma parse_packet_sent p k bs r :
  sent k bs -> reads V5 k -> parse_packet p (bs ++ r) = Ok (Some (canon k), r).
Proof.
  intros (He & Hm & Hw & Hr) Hv. unfold parse_packet.
  rewrite check_complete by (eapply packet_min_frame; eassumption).
  unfold parse. erewrite packet_rt by eassumption. reflexivity.
Qed.

(** However the stream is split, the server asks for more data until the buffer holds
    the first frame. *)
Lemma read_one p frame tail : is_min_frame frame -> forall chunks buf,
  Forall (fun c => c <> []) chunks -> buf ++ concat chunks = frame ++ tail ->
  exists r cs, server_read p buf chunks = server_read p (frame ++ r) cs /\
    r ++ concat cs = tail /\ Forall (fun c => c <> []) cs.
Proof.
  intros Hf chunks. induction chunks as [|c cs IH]; intros buf Hc E.
  - cbn [concat] in E. rewrite app_nil_r in E. subst buf.
    exists tail, []. cbn [concat]. rewrite app_nil_r. auto.
  - inv Hc. destruct (Nat.le_gt_cases (length frame) (length buf)) as [Hle|Hgt].
    + symmetry in E. destruct (app_split _ _ _ _ E Hle) as (m & -> & E').
      exists m, (c :: cs). auto.
    + destruct (app_split _ _ _ _ E ltac:(lia)) as (m & -> & E').
      assert (Hmne : m <> []) by (intros ->; rewrite app_nil_r in Hgt; lia).
      destruct (IH (buf ++ c) H2) as (r & cs' & E1 & E2 & E3); [rewrite <- app_assoc; exact E|].
      exists r, cs'. repeat split; [|assumption..]. rewrite server_read_step.
      unfold parse_packet at 1. rewrite (check_incomplete p (buf ++ m) buf m) by auto.
      destruct c as [|b c]; [congruence|]. exact E1.
Qed.

(** A stream that ends inside a frame yields no packet: the end is reported as an error
    (or as a clean close, when nothing of the frame arrived). *)
Lemma read_truncated p frame suf : is_min_frame frame -> suf <> [] -> forall chunks buf,
  Forall (fun c => c <> []) chunks -> frame = (buf ++ concat chunks) ++ suf ->
  exists b cs, server_read p buf chunks = (server_eof (buf ++ concat chunks), b, cs).
Proof.
  intros Hf Hs chunks. induction chunks as [|c cs IH]; intros buf Hc E; rewrite server_read_step;
    unfold parse_packet.
  - cbn [concat] in *. rewrite app_nil_r in *.
    rewrite (check_incomplete p frame buf suf) by auto. eauto.
  - rewrite (check_incomplete p frame buf (concat (c :: cs) ++ suf)); [|assumption| |].
    + inv Hc. destruct c as [|b c]; [congruence|].
      destruct (IH (buf ++ b :: c) H2) as (b' & cs' & E1).
      { cbn [concat]. rewrite !app_assoc. reflexivity. }
      exists b', cs'. rewrite E1. cbn [concat]. rewrite app_assoc. reflexivity.
    + rewrite app_assoc. exact E.
    + intros Hn. apply app_eq_nil in Hn. tauto.
Qed.

(** Reading a stream of good packets followed by anything. *)
Lemma server_reads_prefix p before : forall tail chunks buf,
  Forall (fun kb => sent (fst kb) (snd kb) /\ reads V5 (fst kb)) before ->
  Forall (fun c => c <> []) chunks ->
  buf ++ concat chunks = concat (map snd before) ++ tail ->
  exists buf' chunks', buf' ++ concat chunks' = tail /\ Forall (fun c => c <> []) chunks' /\
    forall ks out, server_reads p buf' chunks' ks out ->
      server_reads p buf chunks (map (fun kb => canon (fst kb)) before ++ ks) out.
Proof.
  induction before as [|[k bs] before IH]; intros tail chunks buf Hs Hc E.
  - exists buf, chunks. cbn in *. auto.
  - inv Hs. cbn [fst snd map concat] in *. destruct H1 as [Hk Hv]. rewrite <- app_assoc in E.
    assert (Hf : is_min_frame bs) by (destruct Hk as (? & ? & _); eapply packet_min_frame; eassumption).
    destruct (read_one p bs _ Hf chunks buf Hc E) as (r & cs & Hread & Er & Hcs).
    rewrite (server_read_step p (bs ++ r)), (parse_packet_sent p k) in Hread by assumption.
    destruct (IH tail cs r H2 Hcs Er) as (buf' & chunks' & E1 & E2 & E3).
    exists buf', chunks'. repeat split; auto. intros ks out Hks. cbn [map app].
    eapply sreads_packet; [exact Hread|]. auto.
Qed.

Lemma nonempty_nil chunks : Forall (fun c : bytes => c <> []) chunks -> concat chunks = [] -> chunks = [].
Proof. destruct 1; [reflexivity|]. cbn. intros E. apply app_eq_nil in E. tauto. Qed.

Lemma server_framing p kbs chunks :
  Forall (fun kb => sent (fst kb) (snd kb) /\ reads V5 (fst kb)) kbs ->
  Forall (fun c => c <> []) chunks ->
  concat chunks = concat (map snd kbs) ->
  server_reads p [] chunks (map (fun kb => canon (fst kb)) kbs) RClosed.
Proof.
  intros Hs Hc E.
  destruct (server_reads_prefix p kbs [] chunks [] Hs Hc) as (buf & cs & E1 & E2 & E3).
  { rewrite app_nil_r. exact E. }
  apply app_eq_nil in E1. destruct E1 as [-> E1]. apply nonempty_nil in E1; [subst|assumption].
  rewrite <- (app_nil_r (map _ kbs)). apply E3. eapply sreads_end; [reflexivity|discriminate].
Qed.

(** The same, when the stream stops inside a packet. *)
Lemma server_framing_truncated p kbs k bs pre suf chunks :
  Forall (fun kb => sent (fst kb) (snd kb) /\ reads V5 (fst kb)) kbs ->
  sent k bs -> bs = pre ++ suf -> pre <> [] -> suf <> [] ->
  Forall (fun c => c <> []) chunks ->
  concat chunks = concat (map snd kbs) ++ pre ->
  server_reads p [] chunks (map (fun kb => canon (fst kb)) kbs) (RError (EReason NormalDisconnection)).
Proof.
  intros Hs Hk Hb Hpre Hsuf Hc E.
  destruct (server_reads_prefix p kbs pre chunks [] Hs Hc E) as (buf & cs & E1 & E2 & E3).
  rewrite <- (app_nil_r (map _ kbs)). apply E3.
  destruct (read_truncated p bs suf) with (chunks := cs) (buf := buf) as (b & cs' & Er); try assumption.
  - destruct Hk as (? & ? & _). eapply packet_min_frame; eassumption.
  - rewrite E1. exact Hb.
  - rewrite E1 in Er. destruct pre; [congruence|]. eapply sreads_end; [exact Er|discriminate].
Qed.

Lemma server_reads_det p buf chunks ks out : server_reads p buf chunks ks out ->
  forall ks' out', server_reads p buf chunks ks' out' -> ks = ks' /\ out = out'.
Proof.
  induction 1; intros ks' out' H'; inv H';
    match goal with A : ?x = _, B : ?x = _ |- _ => rewrite A in B; inv B end.
  - auto.
  - exfalso. eapply H0. reflexivity.
  - exfalso. eapply H2. reflexivity.
  - destruct (IHserver_reads _ _ H2). subst. auto.
Qed.

(** ** The ping defect *)

Lemma parse_zero p r : parse p (0 :: r) = Err (EReason MalformedPacket).
Proof. reflexivity. Qed.

(** Once a zero byte is at the front of the buffer, no packet is ever read again. *)
Lemma stuck_after_zero p chunks : forall r out buf cs,
  server_read p (0 :: r) chunks = (out, buf, cs) -> forall k, out <> RPacket k.
Proof.
  induction chunks as [|c cs' IH]; intros r out buf cs H k; rewrite server_read_step in H;
    unfold parse_packet in H; rewrite ?parse_zero in H;
    destruct (check p (0 :: r)) as [|e|]; try destruct e; cbn [bind server_eof] in H;
    try (inv H; discriminate).
  destruct c as [|b c]; [inv H; discriminate|].
  cbn [app] in H. eapply IH. exact H.
Qed.

Lemma ping_frame : is_min_frame pingreq_enc.
Proof. eapply (packet_min_frame PingReq); [reflexivity|]. vm_compute. discriminate. Qed.

Lemma ping_read p r chunks :
  server_read p (pingreq_enc ++ r) chunks = (RPacket PingReq, 0 :: r, chunks).
Proof.
  rewrite server_read_step. unfold parse_packet.
  rewrite (check_complete p pingreq_enc r ping_frame). reflexivity.
Qed.

(** Whatever a client sends after a PINGREQ and however it is split, the server reads
    nothing more. *)
Lemma ping_kills_stream p before rest chunks :
  Forall (fun kb => sent (fst kb) (snd kb) /\ reads V5 (fst kb)) before ->
  Forall (fun c => c <> []) chunks ->
  concat chunks = concat (map snd before) ++ pingreq_enc ++ rest ->
  exists out, server_reads p [] chunks (map (fun kb => canon (fst kb)) before ++ [PingReq]) out /\
    out <> RClosed /\ forall k, out <> RPacket k.
Proof.
  intros Hs Hc E.
  destruct (server_reads_prefix p before _ chunks [] Hs Hc E) as (buf & cs & E1 & E2 & E3).
  destruct (read_one p pingreq_enc rest ping_frame cs buf E2 E1) as (r & cs' & Er & E4 & E5).
  rewrite ping_read in Er.
  destruct (server_read p (0 :: r) cs') as [[out b] cs''] eqn:Ez.
  exists out. pose proof (stuck_after_zero _ _ _ _ _ _ Ez) as Hz. repeat split.
  - apply E3. eapply sreads_packet; [exact Er|]. eapply sreads_end; [exact Ez|exact Hz].
  - clear - Ez. revert r Ez. induction cs' as [|c cs' IH]; intros r Ez; rewrite server_read_step in Ez;
    unfold parse_packet in Ez; rewrite ?parse_zero in Ez;
    destruct (check p (0 :: r)) as [|e|]; try destruct e; cbn [bind server_eof] in Ez;
    try (inv Ez; discriminate).
    destruct c as [|x c]; [inv Ez; discriminate|]. cbn [app] in Ez. eapply IH, Ez.
  - exact Hz.
Qed.

(** ** Client framing *)

Definition client_sent (k : packet) (bs : bytes) : Prop :=
  packet_enc k = Ok bs /\ blen bs <= max_frame /\ wf_packet k /\ (roundtrippable k \/ k = PingResp).

Lemma client_read_step p v buf chunks :
  client_read p v buf chunks =
  match client_try p v buf with
  | Ok (Some k, r) => (RPacket k, r, chunks)
  | Ok (None, _) =>
      match chunks with
      | [] => (RClosed, buf, [])
      | [] :: cs => (RClosed, buf, cs)
      | c :: cs => client_read p v (buf ++ c) cs
      end
  | Err e => (RError e, buf, chunks)
  | Panic => (RPanic, buf, chunks)
  end.
Proof. destruct chunks; reflexivity. Qed.

Lemma packet_enc_nonempty k bs : packet_enc k = Ok bs -> bs <> [].
Proof. intros H. apply packet_framed in H. destruct H as (h & b & ->). discriminate. Qed.

Lemma client_try_sent p v k bs r :
  client_sent k bs -> reads v k -> client_try p v (bs ++ r) = Ok (Some (canon k), r).
Proof.
  intros (He & Hm & Hw & Hr) Hv. unfold client_try.
  assert (Hne : bs ++ r <> []).
  { apply packet_enc_nonempty in He. destruct bs; [congruence|discriminate]. }
  destruct (bs ++ r) as [|x l] eqn:El; [congruence|]. rewrite <- El in *. clear x l El.
  assert (Hc : exists r', parse_with_version p v (bs ++ r) = Ok (canon k, r')).
  { destruct Hr as [Hr|Hr].
    - exists r. apply packet_rt; assumption.
    - subst k. inv He. exists (0 :: r). reflexivity. }
  destruct Hc as (r' & ->).
  destruct (canon_enc k bs He) as (bs' & -> & Hl).
  { destruct k; try exact I. destruct Hr as [Hr|Hr]; [exact Hr|discriminate]. }
  cbn [bind]. rewrite Hl, blen_app.
  replace (blen bs + blen r <? blen bs) with false by lia. rewrite bdrop_app. reflexivity.
Qed.

Lemma client_framing p v groups : forall cur,
  Forall (fun kb => client_sent (fst kb) (snd kb) /\ reads v (fst kb)) (cur ++ concat groups) ->
  Forall (fun g => g <> []) groups ->
  client_reads p v (concat (map snd cur)) (map (fun g => concat (map snd g)) groups)
    (map (fun kb => canon (fst kb)) (cur ++ concat groups)) RClosed.
Proof.
  induction groups as [|g groups IH]; intros cur; induction cur as [|[k bs] cur IHc];
    intros Hs Hg; cbn [map concat app] in *.
  - eapply creads_end; [reflexivity|discriminate].
  - inv Hs. destruct H1 as [Hk Hv]. eapply creads_packet; [|apply IHc; assumption].
    rewrite client_read_step. cbn [fst snd] in *. rewrite (client_try_sent p v k) by assumption.
    reflexivity.
  - inv Hg. pose proof (IH g Hs H2) as Hr.
    assert (Hstep : client_read p v [] (concat (map snd g) :: map (fun g => concat (map snd g)) groups)
            = client_read p v (concat (map snd g)) (map (fun g => concat (map snd g)) groups)).
    { rewrite client_read_step. cbn [client_try].
      destruct (concat (map snd g)) as [|x l] eqn:E; [|reflexivity].
      exfalso. destruct g as [|[k bs] g]; [congruence|]. cbn in E. inv Hs.
      destruct H3 as [(He & _) _]. apply packet_enc_nonempty in He. cbn in He.
      apply app_eq_nil in E. tauto. }
    inv Hr; (eapply creads_end || eapply creads_packet); rewrite ?Hstep; eassumption.
  - inv Hs. destruct H1 as [Hk Hv]. eapply creads_packet; [|apply IHc; assumption].
    rewrite client_read_step. cbn [fst snd] in *. rewrite (client_try_sent p v k) by assumption.
    reflexivity.
Qed.
