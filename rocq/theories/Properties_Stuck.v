(** Property C124: the bytes the client library holds. Every theorem is followed by a concrete case meeting its hypotheses. *)
From Coq Require Import String.
From Verif Require Import Base Utf8 Codec SpecCodec Tac CodecFacts Str Maps Topic SpecTopic Property SpecProperty PropertyFacts PacketProps Packets SpecPackets
  PacketsRoundtrip WireFacts Frame ParseFacts FrameFacts Listener SpecListener ListenerFacts SpecStuck.
Local Open Scope list_scope.

(** ** What it does right *)
Lemma poll_waits p v ins : forall buf b is, client_poll p v buf ins = (None, b, is) -> exists r, client_try p v b = Ok (None, r).
Proof.
  induction ins as [|i ins IH]; intros buf b is H; cbn [client_poll] in H; destruct (client_try p v buf) as [[[k|] r]|e|] eqn:E; try discriminate.
  destruct i as [[|x c]|]; try discriminate; [eapply IH; eauto|]. injection H as <- <-. eauto.
Qed.
(** When the library waits for more bytes, it does not hold a whole packet that it could read, whatever else it holds. *)
Theorem C124_whole_packets_partial p v buf ins b is k frame rest :
  client_poll p v buf ins = (None, b, is) -> client_sent k frame -> reads v k -> b <> frame ++ rest.
Proof. intros H Hk Hv ->. destruct (poll_waits _ _ _ _ _ _ H) as (r & E). rewrite (client_try_sent p v k frame rest Hk Hv) in E. discriminate. Qed.
Print Assumptions C124_whole_packets_partial.
(** So as long as it is sent such packets and has read up to the end of one, it holds less than one packet. *)
Theorem C124_bounded_partial p v buf ins b is packets more :
  client_poll p v buf ins = (None, b, is) -> Forall (fun kb => client_sent (fst kb) (snd kb) /\ reads v (fst kb)) packets ->
  b ++ more = concat (map snd packets) -> blen b < max_frame.
Proof.
  intros H Hp E. destruct packets as [|[k frame] packets].
  - apply app_eq_nil in E. destruct E as [-> _]. reflexivity.
  - inversion Hp as [|? ? (Hk & Hv) _]; subst. cbn [fst snd map concat] in *. destruct (N.lt_ge_cases (blen b) (blen frame)) as [Hl|Hl]; [destruct Hk as (_ & Hm & _); lia|].
    destruct (app_eq_app _ _ _ _ E) as (l & [(-> & _)|(-> & _)]).
    + exfalso. exact (C124_whole_packets_partial p v buf ins _ is k frame l H Hk Hv eq_refl).
    + rewrite blen_app in Hl. destruct l as [|y l]; [|rewrite blen_cons in Hl; lia]. exfalso. apply (C124_whole_packets_partial p v buf ins _ is k _ [] H Hk Hv). rewrite !app_nil_r. reflexivity.
Qed.
Print Assumptions C124_bounded_partial.

(** ** A packet on which it waits for ever *)
Lemma cut_header (dup retain : bool) : let h : N := 0x30 + (if dup then 8 else 0) + (if retain then 1 else 0) in h / 16 = 3 /\ qos_from (N.land h 6 / 2) = AtMostOnce.
Proof. destruct dup, retain; split; reflexivity. Qed.
Lemma cut_try p v dup retain t x payload rest : wf_str t -> blen (cut_body t x payload) <= vbi_max -> is_bytes (cut_body t x payload ++ rest) ->
  client_try p v (cut_publish dup retain t x payload ++ rest) = Ok (None, cut_publish dup retain t x payload ++ rest).
Proof.
  intros Ht Hl Hb. unfold cut_publish. destruct (cut_header dup retain) as (H1 & H2). cbv zeta in *. set (h := (0x30 + _ + _)%N) in *. clearbody h. cbn [app]. unfold client_try, parse_with_version. rewrite H1.
  unfold publish_dec. cbn [get_u8 bind]. rewrite <- app_assoc. rewrite (vbi_dec_denotes p _ (blen (cut_body t x payload))); [|apply vbi_enc_denotes; lia|apply vbi_enc_len; lia|exact Hb].
  cbn [bind]. unfold cut_body. rewrite <- !app_assoc. rewrite (str_rt t _ Ht). cbn [bind]. rewrite H2. cbn [bind app].
  assert (Hr : is_bytes (35 :: x :: payload ++ rest)).
  { unfold cut_body in Hb. rewrite <- !app_assoc in Hb. apply Forall_app in Hb. destruct Hb as [_ Hb]. cbn [app] in Hb. now inversion Hb. }
  unfold props_dec. change (2 :: 35 :: x :: payload ++ rest) with ([2] ++ 35 :: x :: payload ++ rest). rewrite (vbi_dec_denotes p [2] 2); [|apply (vbi_last 2); lia|vm_compute; discriminate|exact Hr].
  cbn [bind]. change (2 =? 0) with false. cbv iota. rewrite !blen_cons. replace (blen (payload ++ rest) + 1 + 1 <? 2) with false by lia.
  replace (1 + (1 + blen (payload ++ rest)) <? 2) with false by lia.
  change (btake 2 (35 :: x :: payload ++ rest)) with [35; x]. reflexivity.
Qed.
Lemma cut_polls p v dup retain t x payload : wf_str t -> blen (cut_body t x payload) <= vbi_max -> is_bytes (cut_body t x payload) ->
  forall ins rest, is_bytes rest -> arrives ins ->
  match client_poll p v (cut_publish dup retain t x payload ++ rest) ins with
  | (Some out, b, is) => out = RClosed /\ is = []
  | (None, b, is) => exists now, ins = now ++ Dropped :: is /\ b = cut_publish dup retain t x payload ++ rest ++ concat (arrived now)
  end.
Proof.
  intros Ht Hl Hb. induction ins as [|i ins IH]; intros rest Hr Ha; cbn [client_poll]; rewrite cut_try by (auto; apply Forall_app; auto); [auto|].
  assert (Ha' : arrives ins) by (intros c Hc; apply Ha; now right). destruct i as [c|].
  - destruct (Ha c (or_introl eq_refl)) as (Hn & Hc). destruct c as [|y c]; [contradiction|]. rewrite <- app_assoc. specialize (IH (rest ++ y :: c) ltac:(apply Forall_app; auto) Ha').
    destruct (client_poll _ _ _ ins) as [[[out|] b] is]; [exact IH|]. destruct IH as (now & -> & ->). exists (Chunk (y :: c) :: now). split; [reflexivity|]. cbn [arrived concat]. rewrite <- !app_assoc. reflexivity.
  - exists []. split; [reflexivity|]. cbn [arrived concat]. rewrite app_nil_r. reflexivity.
Qed.
(** It is false that the library never waits with a whole packet in its buffer and that what it holds is bounded: once the first bytes it has not
    read are such a PUBLISH, a complete packet, it keeps everything that arrives ... *)
Theorem C124_keeps_everything_refuted p v dup retain t x payload rest chunks :
  wf_str t -> blen (cut_body t x payload) <= vbi_max -> is_bytes (cut_body t x payload) -> is_bytes rest -> arrives (map Chunk chunks) ->
  is_min_frame (cut_publish dup retain t x payload) /\
  client_poll p v (cut_publish dup retain t x payload ++ rest) (map Chunk chunks ++ [Dropped]) = (None, cut_publish dup retain t x payload ++ rest ++ concat chunks, []).
Proof.
  intros Ht Hl Hb Hr Ha. split.
  - eexists _, (vbi_enc (blen (cut_body t x payload))), (cut_body t x payload). split; [reflexivity|]. split; [apply vbi_enc_denotes; lia|]. split; [apply vbi_enc_len; lia|]. intros len Hd. apply vbi_enc_minimal; [lia|exact Hd].
  - revert rest Hr Ha. induction chunks as [|c chunks IH]; intros rest Hr Ha; cbn [map app client_poll concat]; rewrite cut_try by (auto; apply Forall_app; auto); [rewrite app_nil_r; reflexivity|].
    destruct (Ha c (or_introl eq_refl)) as (Hn & Hc). destruct c as [|y c]; [contradiction|]. rewrite <- app_assoc, IH; [rewrite <- !app_assoc; reflexivity|apply Forall_app; auto|]. intros d Hd. apply Ha. now right.
Qed.
Print Assumptions C124_keeps_everything_refuted.
(** ... and, whatever arrives and whenever its reads are cancelled, hands nothing to the application any more, not even an error; the end of
    the stream then looks as if the broker had closed the connection in good order. *)
Theorem C124_nothing_more_refuted p v dup retain t x payload rest ins ks out :
  wf_str t -> blen (cut_body t x payload) <= vbi_max -> is_bytes (cut_body t x payload) -> is_bytes rest -> arrives ins ->
  client_polls p v (cut_publish dup retain t x payload ++ rest) ins ks out -> ks = [] /\ out = RClosed.
Proof.
  intros Ht Hl Hb Hr Ha H. remember (cut_publish dup retain t x payload ++ rest) as buf eqn:E. revert rest E Hr Ha.
  induction H as [buf ins out b is H Hn|buf ins k b is ks out H Hp IH|buf ins b is ks out H Hp IH|buf is ks out Hp IH]; intros rest -> Hr Ha.
  - pose proof (cut_polls p v dup retain t x payload Ht Hl Hb ins rest Hr Ha) as G. rewrite H in G. tauto.
  - pose proof (cut_polls p v dup retain t x payload Ht Hl Hb ins rest Hr Ha) as G. rewrite H in G. destruct G; discriminate.
  - pose proof (cut_polls p v dup retain t x payload Ht Hl Hb ins rest Hr Ha) as G. rewrite H in G. destruct G as (now & -> & ->). eapply IH; [reflexivity| |].
    + apply Forall_app. split; [exact Hr|]. clear - Ha. induction now as [|[c|] now IH]; cbn [arrived concat]; [constructor| |].
      * apply Forall_app. split; [apply (Ha c); now left|]. apply IH. intros d Hd. apply Ha. now right.
      * apply IH. intros d Hd. apply Ha. now right.
    + intros c Hc. apply Ha. apply in_or_app. right. now right.
  - eapply IH; [reflexivity|exact Hr|]. intros c Hc. apply Ha. now right.
Qed.
Print Assumptions C124_nothing_more_refuted.

(** ** Cases *)
(** The packet with topic "a" and payload "hi"; it is followed by a PUBLISH that the library could read. *)
Definition ex_cut : bytes := [0x30; 8; 0; 1; 97; 2; 0x23; 0; 104; 105].
Definition ex_good : bytes := [0x30; 6; 0; 1; 97; 0; 104; 105].
Example C124_ex : cut_publish false false (str "a") 0 (str "hi") = ex_cut /\ wf_str (str "a") /\ is_bytes (cut_body (str "a") 0 (str "hi"))
  /\ arrives [Chunk ex_good; Dropped; Chunk ex_good] /\ client_polls Debug V5 ex_cut [Chunk ex_good; Dropped; Chunk ex_good] [] RClosed
  /\ (exists k r, client_try Debug V5 ex_good = Ok (Some k, r)).
Proof.
  split; [vm_compute; reflexivity|]. split; [split; [apply utf8_valid_iff; vm_compute; reflexivity|vm_compute; discriminate]|]. split; [repeat constructor|].
  split; [intros c [H|[H|[H|[]]]]; try discriminate; injection H as <-; (split; [discriminate|repeat constructor])|]. split.
  - eapply cp_dropped; [vm_compute; reflexivity|]. eapply cp_end; [vm_compute; reflexivity|discriminate].
  - eexists _, _. vm_compute. reflexivity.
Qed.
(** The library waits with three of the four bytes of a PUBACK. *)
Example C124_ex2 : exists packets b is, client_poll Debug V5 [] [Chunk [0x40; 2; 0]; Dropped] = (None, b, is) /\ b = [0x40; 2; 0] /\
  Forall (fun kb => client_sent (fst kb) (snd kb) /\ reads V5 (fst kb)) packets /\ b ++ [7] = concat (map snd packets).
Proof.
  exists [(PubAck (Mk_ack_packet 7 Success None), [0x40; 2; 0; 7])], [0x40; 2; 0], []. split; [vm_compute; reflexivity|]. split; [reflexivity|]. split; [|reflexivity].
  constructor; [|constructor]. cbn [fst snd]. split; [|exact I]. split; [reflexivity|]. split; [vm_compute; discriminate|]. split; [|left; exact I]. split; [reflexivity|exact I].
Qed.
