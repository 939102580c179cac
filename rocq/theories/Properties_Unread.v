(** Property C123: the bytes a connection holds. Every theorem is followed by a concrete case meeting its hypotheses. *)
From Coq Require Import String.
From Verif Require Import Base Utf8 Codec SpecCodec Tac CodecFacts Str Maps Topic SpecTopic Property PacketProps Packets SpecPackets
  TopicTree Storage Broker Auth Session Server SpecServer Frame ParseFacts FrameFacts Network SpecNetwork NetworkFacts Conc SpecConc ConcNet SpecConcNet ConcNetFacts
  SpecUnread Examples Properties_Conc.
Local Open Scope list_scope.

Lemma incomplete_short p buf : is_bytes buf -> check p buf = Err PacketIncomplete -> blen buf < max_frame.
Proof.
  intros Hb H. unfold check in H. destruct (blen buf <? 2) eqn:E2; [apply N.ltb_lt in E2; unfold max_frame, vbi_max; lia|]. destruct buf as [|h r]; [cbn in E2; discriminate|].
  change (bdrop 1 (h :: r)) with r in H. inversion Hb as [|? ? Hh Hr]; subst. rewrite blen_cons in *. rewrite vbi_dec_spec in H by exact Hr.
  assert (Hlen : forall n t, vbi_spec p r = Ok (n, t) -> n <= vbi_max).
  { intros n t E. unfold vbi_spec, is_bytes, is_byte, vbi_max in *. destruct r as [|a r]; [discriminate|]. inversion Hr as [|? ? Ha Hr1]; subst. destruct (a <? 128) eqn:?; [inv E; lia|].
    destruct r as [|b r]; [discriminate|]. inversion Hr1 as [|? ? Hb1 Hr2]; subst. destruct (b <? 128) eqn:?; [inv E; lia|].
    destruct r as [|c r]; [discriminate|]. inversion Hr2 as [|? ? Hc1 Hr3]; subst. destruct (c <? 128) eqn:?; [inv E; lia|].
    destruct r as [|d r]; [discriminate|]. inversion Hr3 as [|? ? Hd1 Hr4]; subst. destruct (d <? 128) eqn:?; [inv E; lia|]. destruct r; [discriminate|]. revert E. destruct p; [destruct (_ mod _ <? _)|]; intros E; discriminate E. }
  destruct (vbi_spec p r) as [[n t]|e|] eqn:Ev; cbn [bind] in H.
  - specialize (Hlen _ _ eq_refl). destruct (vbi_size n) as [z| |] eqn:Ez; cbn [bind] in H; [|exfalso; unfold vbi_size in Ez; repeat destruct (_ <=? _); discriminate Ez|discriminate].
    assert (Hz : z <= 4) by (unfold vbi_size in Ez; repeat destruct (_ <=? _); inv Ez; lia).
    unfold usize_sub, max_frame, vbi_max in *. destruct (z <=? 1 + blen r) eqn:E1; [|apply N.leb_gt in E1; lia]. cbn [bind] in H. apply N.leb_le in E1.
    destruct (1 <=? 1 + blen r - z) eqn:E3; [|apply N.leb_gt in E3; lia]. cbn [bind] in H. apply N.leb_le in E3.
    destruct (n <=? _) eqn:E4; [discriminate|]. apply N.leb_gt in E4. lia.
  - injection H as ->. unfold vbi_spec in Ev. unfold max_frame, vbi_max. repeat (destruct r as [|? r]; [rewrite ?blen_cons, ?blen_nil; lia|]; revert Ev; destruct (_ <? 128); [discriminate|intros Ev]).
    destruct r as [|? r]; [rewrite ?blen_cons, ?blen_nil; lia|]. revert Ev. destruct p; [destruct (_ mod _ <? _)|]; intros Ev; discriminate Ev.
  - discriminate.
Qed.
Lemma incomplete_packet p buf r : parse_packet p buf = Ok (None, r) -> check p buf = Err PacketIncomplete.
Proof. unfold parse_packet. destruct (check p buf) as [[]|e|]; try discriminate; [destruct (parse p buf) as [[? ?]| |]; discriminate|]. destruct e; try discriminate. reflexivity. Qed.

(** What is known of a reader *)
Definition modest (l : N) (t : task) : Prop := is_bytes (tk_buf t) /\ blen (tk_buf t) < max_frame + l /\ Forall (fun b => is_bytes b /\ blen b <= l) (tk_inbox t).
Lemma suffix_blen {r buf} : suffix r buf -> is_bytes buf -> is_bytes r /\ blen r <= blen buf.
Proof. intros (x & ->) H. apply Forall_app in H. split; [apply H|]. rewrite blen_app. lia. Qed.
Lemma modest_poll p l inbox : forall buf r b cs, is_bytes buf -> blen buf < max_frame + l -> Forall (fun b => is_bytes b /\ blen b <= l) inbox -> poll_read p buf inbox = (r, b, cs) ->
  is_bytes b /\ blen b < max_frame + l /\ Forall (fun b => is_bytes b /\ blen b <= l) cs /\ (r = None -> cs = [] /\ check p b = Err PacketIncomplete).
Proof.
  induction inbox as [|x inbox IH]; intros buf r b cs Hb Hl Hi E; rewrite poll_step in E; destruct (parse_packet p buf) as [[[k|] r']|e|] eqn:Ep; try (inv E; repeat split; auto; discriminate).
  - inv E. destruct (parse_packet_suffix _ _ _ _ Hb Ep) as [_ Hs]. destruct (suffix_blen Hs Hb). repeat split; auto; try discriminate. lia.
  - inv E. apply incomplete_packet in Ep. repeat split; auto.
  - inv E. destruct (parse_packet_suffix _ _ _ _ Hb Ep) as [_ Hs]. destruct (suffix_blen Hs Hb). repeat split; auto; try discriminate. lia.
  - inversion Hi as [|? ? [Hx1 Hx2] Hi']; subst. destruct x as [|y x]; [inv E; repeat split; auto; discriminate|]. apply incomplete_packet, incomplete_short in Ep; [|exact Hb].
    eapply IH; [| |exact Hi'|exact E]; [apply Forall_app; split; assumption|]. rewrite blen_app. lia.
Qed.
Lemma modest_step cfg p l n m n' is : bstep cfg p n m = Some (n', is) -> (forall c bs, m = BNet (NArrive c bs) -> is_bytes bs /\ blen bs <= l) ->
  (forall c, modest l (bn_tasks n c)) -> forall c, modest l (bn_tasks n' c).
Proof.
  intros E Hm H c. assert (Hput : forall d t, modest l t -> modest l (put_task d t (bn_tasks n) c)) by (intros d t Ht; unfold put_task; destruct (Nat.eqb c d); [exact Ht|apply H]).
  destruct m as [[d bs|d u a|d f|d|]|d]; cbn [bstep] in E.
  - injection E as <- <-. cbn [bn_tasks]. apply Hput. destruct (H d) as (H1 & H2 & H3). destruct (Hm d bs eq_refl). split; [exact H1|]. split; [exact H2|]. cbn [tk_inbox]. apply Forall_app. auto.
  - destruct (busy d n); [discriminate|]. destruct (H d) as (H1 & H2 & H3). destruct (poll_read p (tk_buf (bn_tasks n d)) (tk_inbox (bn_tasks n d))) as [[r b] cs] eqn:Ep.
    destruct (modest_poll p l _ _ _ _ _ H1 H2 H3 Ep) as (G1 & G2 & G3 & _). assert (Hg : forall ph, modest l (Mk_task ph b cs)) by (intros ph; split; [exact G1|split; [exact G2|exact G3]]).
    destruct (tk_phase (bn_tasks n d)); [| |discriminate]; (destruct r as [out|]; [|injection E as <- <-; apply Hput, Hg]);
      apply bstart_inv in E; destruct E as (_ & -> & _); apply Hput, Hg.
  - destruct (tk_phase (bn_tasks n d)); try discriminate. apply bstart_inv in E. destruct E as (_ & -> & _). apply H.
  - destruct (tk_phase (bn_tasks n d)); try discriminate. apply bstart_inv in E. destruct E as (_ & -> & _). apply Hput. apply (H d).
  - discriminate.
  - destruct (mstep cfg (bn_conf n) (MGo d)) as [[x i]|]; [|discriminate]. injection E as <- <-. cbn [bn_tasks]. destruct i; try apply H. apply Hput. apply (H d).
Qed.
Lemma modest_runs cfg p l n ms tr n' : bruns cfg p n ms tr n' -> reads_at_most l ms -> arrive_bytes ms -> (forall c, modest l (bn_tasks n c)) -> forall c, modest l (bn_tasks n' c).
Proof.
  induction 1 as [n|n m n1 is ms tr n2 Hs Hr IH]; intros Hl Hb H; [exact H|]. apply IH; [intros c bs Hi; apply (Hl c); right; exact Hi|intros c bs Hi; apply (Hb c); right; exact Hi|].
  eapply modest_step; [exact Hs| |exact H]. intros c bs ->. split; [apply (Hb c)|apply (Hl c)]; left; reflexivity.
Qed.
Lemma modest_on st l c : modest l (bn_tasks (bnet_on st) c).
Proof. split; [constructor|]. split; [change (0 < max_frame + l); unfold max_frame, vbi_max; lia|constructor]. Qed.

(** Whatever is sent to the broker, in whatever pieces, it holds of no connection more than one packet of the largest size and one
    read. *)
Theorem C123_bounded st cfg p l ms tr n c :
  bruns cfg p (bnet_on st) ms tr n -> reads_at_most l ms -> arrive_bytes ms -> blen (held c n) < max_frame + l.
Proof. intros Hr Hl Hb. apply (modest_runs _ _ _ _ _ _ _ Hr Hl Hb (modest_on st l) c). Qed.
Print Assumptions C123_bounded.
(** When it looks at a connection and starts no handler, it has read all that has arrived and holds less than one packet: no
    complete packet is left. *)
Theorem C123_waiting st cfg p ms tr n c u a n' :
  bruns cfg p (bnet_on st) ms tr n -> arrive_bytes ms -> bstep cfg p n (BNet (NPoll c u a)) = Some (n', []) ->
  tk_inbox (bn_tasks n' c) = [] /\ blen (held c n') < max_frame /\ forall frame rest, is_min_frame frame -> held c n' <> frame ++ rest.
Proof.
  intros Hr Hb E. assert (Hex : exists l, reads_at_most l ms).
  { clear. induction ms as [|m ms (l & IH)]; [exists 0; intros c bs []|]. destruct m as [[d b|d u a|d f|d|]|d]; try (exists l; intros c bs [Hi|Hi]; [discriminate|apply (IH c bs Hi)]).
    exists (N.max (blen b) l). intros c bs [Hi|Hi]; [injection Hi as -> ->; lia|]. specialize (IH c bs Hi). lia. }
  destruct Hex as (l & Hl). destruct (modest_runs _ _ _ _ _ _ _ Hr Hl Hb (modest_on st l) c) as (H1 & H2 & H3). cbn [bstep] in E. destruct (busy c n); [discriminate|].
  destruct (poll_read p (tk_buf (bn_tasks n c)) (tk_inbox (bn_tasks n c))) as [[r b] cs] eqn:Ep. destruct (modest_poll p l _ _ _ _ _ H1 H2 H3 Ep) as (G1 & G2 & G3 & G4).
  assert (Hn : n' = Mk_bnet (bn_conf n) (put_task c (Mk_task (tk_phase (bn_tasks n c)) b cs) (bn_tasks n)) /\ r = None).
  { destruct (tk_phase (bn_tasks n c)); [| |discriminate]; (destruct r as [out|]; [apply bstart_inv in E; destruct E as (X & _); discriminate|injection E as <-; auto]). }
  destruct Hn as [-> ->]. destruct (G4 eq_refl) as [-> Hc]. unfold held. cbn [bn_tasks]. rewrite put_same. cbn [tk_inbox tk_buf].
  split; [reflexivity|]. split; [eapply incomplete_short; eauto|]. intros frame rest Hf ->. rewrite (check_complete p frame rest Hf) in Hc. discriminate.
Qed.
Print Assumptions C123_waiting.

(** Before it has let anybody in, the broker holds as much as afterwards: whoever connects and announces a packet of the largest
    size makes it hold any smaller number of bytes, in pieces of any size, and no handler is ever started. *)
Lemma poll_pieces p frame suf : is_min_frame frame -> suf <> [] -> forall pieces buf, Forall (fun b => b <> []) pieces -> frame = (buf ++ concat pieces) ++ suf ->
  poll_read p buf pieces = (None, buf ++ concat pieces, []).
Proof.
  intros Hf Hs pieces. induction pieces as [|b pieces IH]; intros buf Hp E; rewrite poll_step; unfold parse_packet.
  - cbn [concat] in *. rewrite app_nil_r in *. rewrite (check_incomplete p frame buf suf) by auto. reflexivity.
  - rewrite (check_incomplete p frame buf (concat (b :: pieces) ++ suf)); [|exact Hf|rewrite app_assoc; exact E|intros Hn; apply app_eq_nil in Hn; tauto].
    inversion Hp; subst. destruct b as [|y b]; [contradiction|]. rewrite IH; [cbn [concat]; rewrite !app_assoc; reflexivity|assumption|]. cbn [concat]. rewrite <- !app_assoc. reflexivity.
Qed.
Lemma arrive_runs cfg p c pieces : forall n, bruns cfg p n (map (fun b => BNet (NArrive c b)) pieces) []
  (Mk_bnet (bn_conf n) (match pieces with [] => bn_tasks n | _ => fold_left (fun ts b => put_task c (Mk_task (tk_phase (ts c)) (tk_buf (ts c)) (tk_inbox (ts c) ++ [b])) ts) pieces (bn_tasks n) end)).
Proof.
  induction pieces as [|b pieces IH]; intros n; cbn [map]; [destruct n; constructor|]. eapply (br_cons cfg p _ _ _ [] _ []); [reflexivity|].
  specialize (IH (Mk_bnet (bn_conf n) (put_task c (Mk_task (tk_phase (bn_tasks n c)) (tk_buf (bn_tasks n c)) (tk_inbox (bn_tasks n c) ++ [b])) (bn_tasks n)))). cbn [bn_conf bn_tasks fold_left] in *.
  destruct pieces; exact IH.
Qed.
Lemma arrive_fold c pieces : forall ts, let ts' := fold_left (fun ts b => put_task c (Mk_task (tk_phase (ts c)) (tk_buf (ts c)) (tk_inbox (ts c) ++ [b])) ts) pieces ts in
  ts' c = Mk_task (tk_phase (ts c)) (tk_buf (ts c)) (tk_inbox (ts c) ++ pieces).
Proof.
  induction pieces as [|b pieces IH]; intros ts; cbn [fold_left]; [rewrite app_nil_r; destruct (ts c); reflexivity|]. cbv zeta in *. rewrite IH, put_same. cbn [tk_phase tk_buf tk_inbox]. rewrite <- app_assoc. reflexivity.
Qed.
Lemma largest_frame x body : blen body = vbi_max -> is_min_frame (x :: vbi_enc vbi_max ++ body).
Proof.
  intros H. exists x, (vbi_enc vbi_max), body. split; [reflexivity|]. rewrite H. split; [apply vbi_enc_denotes; lia|]. split; [vm_compute; discriminate|].
  intros len Hd. apply vbi_enc_minimal; [lia|exact Hd].
Qed.
Theorem C123_before_login_refuted cfg p st c body pieces :
  is_bytes body -> blen body < vbi_max -> Forall (fun b => b <> []) pieces -> concat pieces = 0x10 :: vbi_enc vbi_max ++ body ->
  exists n, bruns cfg p (bnet_on st) (sends_pieces c pieces) [] n /\ held c n = 0x10 :: vbi_enc vbi_max ++ body /\ tk_phase (bn_tasks n c) = Waiting.
Proof.
  intros Hb Hl Hp Hc. set (suf := repeat 0 (N.to_nat (vbi_max - blen body))).
  assert (Hf : is_min_frame (0x10 :: vbi_enc vbi_max ++ body ++ suf)).
  { apply largest_frame. rewrite blen_app. unfold suf, blen at 2. rewrite repeat_length, N2Nat.id. lia. }
  assert (Hs : suf <> []) by (unfold suf; destruct (N.to_nat (vbi_max - blen body)) eqn:E; [lia|discriminate]).
  set (ts := fold_left (fun ts b => put_task c (Mk_task (tk_phase (ts c)) (tk_buf (ts c)) (tk_inbox (ts c) ++ [b])) ts) pieces (bn_tasks (bnet_on st))).
  assert (Ht : ts c = Mk_task Waiting [] pieces) by (unfold ts; rewrite arrive_fold; reflexivity).
  assert (Hq : poll_read p [] pieces = (None, concat pieces, [])) by (apply (poll_pieces p _ suf Hf Hs pieces [] Hp); rewrite app_nil_l, Hc; cbn [app]; rewrite <- app_assoc; reflexivity).
  exists (Mk_bnet (conf_on st) (put_task c (Mk_task Waiting (concat pieces) []) ts)). unfold held. cbn [bn_tasks]. rewrite put_same. cbn [tk_buf tk_phase]. split; [|auto].
  unfold sends_pieces. apply bruns_app. exists (Mk_bnet (conf_on st) ts), [], []. split; [reflexivity|]. split.
  - pose proof (arrive_runs cfg p c pieces (bnet_on st)) as H. destruct pieces; [discriminate|]. exact H.
  - eapply (br_cons cfg p _ _ _ [] _ []); [|constructor]. cbn [bstep bn_tasks bn_conf]. unfold busy. cbn [bn_conf conf_on cn_tasks aget is_some]. rewrite Ht. cbn [tk_phase tk_buf tk_inbox]. rewrite Hq. reflexivity.
Qed.
Print Assumptions C123_before_login_refuted.

(** ** Cases *)
Lemma is_byte_b x : (x <? 256) = true -> is_byte x.
Proof. intros H. apply N.ltb_lt in H. exact H. Qed.
(** A client sends its CONNECT and the beginning of a second packet in one piece; then nothing more. *)
Definition ex_half : bytes := [0x30; 0x83; 0x01; 0x00].
Definition ex_both : bytes := (match packet_enc (Connect (ex_connect "a" true)) with Ok b => b | _ => [] end) ++ ex_half.
Definition ex_unread_moves : list bmove := [BNet (NArrive 1 ex_both); BNet (NPoll 1 (str "uuid") true)].
Definition bnext (n : bnet) (m : bmove) : bnet := match bstep ex_open Base.Release n m with Some (n, _) => n | None => n end.
Definition ex_unread_all : list bmove := ex_unread_moves ++ repeat (BGo 1) 40.
Notation ex_unread_n2 := (fold_left bnext ex_unread_all (bnet_on mem_new)).
Definition went (n : bnet) (m : bmove) : bool := is_some (bstep ex_open Base.Release n m).
Fixpoint bgoes (n : bnet) (ms : list bmove) : list bmove := match ms with [] => [] | m :: ms => if went n m then m :: bgoes (bnext n m) ms else bgoes n ms end.
Lemma bgoes_runs ms : forall n, exists tr, bruns ex_open Base.Release n (bgoes n ms) tr (fold_left bnext ms n).
Proof.
  induction ms as [|m ms IH]; intros n; cbn [bgoes fold_left]; [exists []; constructor|]. assert (Hw : went n m = is_some (bstep ex_open Base.Release n m)) by reflexivity.
  assert (Hb : bnext n m = match bstep ex_open Base.Release n m with Some (n, _) => n | None => n end) by reflexivity. rewrite Hw, Hb. destruct (bstep ex_open Base.Release n m) as [[n1 is]|] eqn:E; cbn [is_some].
  - destruct (IH n1) as (tr & H). exists (is ++ tr). econstructor; [exact E|exact H].
  - apply IH.
Qed.
Example C123_ex : exists ms tr, bruns ex_open Base.Release (bnet_on mem_new) ms tr ex_unread_n2 /\ reads_at_most 100 ms /\ arrive_bytes ms /\ held 1 ex_unread_n2 = ex_half
  /\ tk_phase (bn_tasks ex_unread_n2 1) = Serving /\ exists n', bstep ex_open Base.Release ex_unread_n2 (BNet (NPoll 1 [] true)) = Some (n', []) /\ held 1 n' = ex_half.
Proof.
  destruct (bgoes_runs ex_unread_all (bnet_on mem_new)) as (tr & H). exists (bgoes (bnet_on mem_new) ex_unread_all), tr. split; [exact H|].
  assert (Ha : forall c bs, In (BNet (NArrive c bs)) (bgoes (bnet_on mem_new) ex_unread_all) -> bs = ex_both).
  { intros c bs Hi. assert (Hin : forall ms n, In (BNet (NArrive c bs)) (bgoes n ms) -> In (BNet (NArrive c bs)) ms).
    { clear. induction ms as [|m ms IH]; intros n Hi; cbn [bgoes] in Hi; [contradiction|]. destruct (went n m); [destruct Hi as [->|Hi]; [left; reflexivity|]|]; right; eapply IH; exact Hi. }
    apply Hin in Hi. destruct Hi as [Hi|[Hi|Hi]]; [congruence|discriminate|]. apply repeat_spec in Hi. discriminate. }
  split; [intros c bs Hi; rewrite (Ha _ _ Hi); vm_compute; discriminate|]. split; [intros c bs Hi; rewrite (Ha _ _ Hi); apply Forall_forall; intros x Hx; apply is_byte_b; revert x Hx; apply forallb_forall; vm_compute; reflexivity|].
  split; [vm_compute; reflexivity|]. split; [vm_compute; reflexivity|]. exists (bnext ex_unread_n2 (BNet (NPoll 1 [] true))). split; [vm_compute; reflexivity|vm_compute; reflexivity].
Qed.
(** The length announced by a CONNECT of the largest size, and two bytes of it, in pieces. *)
Example C123_ex2 : let pieces := [[0x10; 0xff]; [0xff; 0xff; 0x7f; 0x00]; [0x04]] in let body := [0x00; 0x04] in
  is_bytes body /\ blen body < vbi_max /\ Forall (fun b => b <> []) pieces /\ concat pieces = 0x10 :: vbi_enc vbi_max ++ body.
Proof. repeat split; try (repeat constructor; discriminate); vm_compute; reflexivity. Qed.
