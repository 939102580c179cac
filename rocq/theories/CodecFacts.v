(** Proofs about Codec.v and Utf8.v. *)
From Verif Require Import Base Utf8 Codec SpecCodec Tac.

(** ** UTF-8 *)

Lemma utf8_encode1_valid c r :
  scalar c -> utf8_valid r = true -> utf8_valid (utf8_encode1 c ++ r) = true.
Proof.
  intros Hs Hr. unfold utf8_encode1, scalar in *.
  destruct (c <? 128) eqn:H1.
  { simpl. rewrite H1. exact Hr. }
  destruct (c <? 2048) eqn:H2.
  { simpl. unfold in_range, is_cont, in_range.
    replace (192 + c / 64 <? 128) with false by lia.
    replace ((194 <=? 192 + c / 64) && (192 + c / 64 <=? 223)) with true by lia.
    rewrite Hr. lia. }
  destruct (c <? 65536) eqn:H3.
  { simpl. unfold in_range, is_cont, in_range. rewrite Hr.
    replace (224 + c / 4096 <? 128) with false by lia.
    replace ((194 <=? 224 + c / 4096) && (224 + c / 4096 <=? 223)) with false by lia.
    destruct (224 + c / 4096 =? 224) eqn:?; [lia|].
    destruct ((225 <=? 224 + c / 4096) && (224 + c / 4096 <=? 236)) eqn:?; [lia|].
    destruct (224 + c / 4096 =? 237) eqn:?; [lia|].
    destruct ((238 <=? 224 + c / 4096) && (224 + c / 4096 <=? 239)) eqn:?; lia. }
  { simpl. unfold in_range, is_cont, in_range. rewrite Hr.
    replace (240 + c / 262144 <? 128) with false by lia.
    replace ((194 <=? 240 + c / 262144) && (240 + c / 262144 <=? 223)) with false by lia.
    replace (240 + c / 262144 =? 224) with false by lia.
    replace ((225 <=? 240 + c / 262144) && (240 + c / 262144 <=? 236)) with false by lia.
    replace (240 + c / 262144 =? 237) with false by lia.
    replace ((238 <=? 240 + c / 262144) && (240 + c / 262144 <=? 239)) with false by lia.
    destruct (240 + c / 262144 =? 240) eqn:?; [lia|].
    destruct ((241 <=? 240 + c / 262144) && (240 + c / 262144 <=? 243)) eqn:?; [lia|].
    destruct (240 + c / 262144 =? 244) eqn:?; lia. }
Qed.

Lemma utf8_valid_of_spec bs : utf8 bs -> utf8_valid bs = true.
Proof.
  intros (cs & Hcs & ->). induction Hcs as [|c cs Hc _ IH]; [reflexivity|].
  simpl flat_map. apply utf8_encode1_valid; assumption.
Qed.

Lemma utf8_cons c r bs :
  scalar c -> utf8 r -> bs = utf8_encode1 c ++ r -> utf8 bs.
Proof.
  intros Hc (cs & Hcs & ->) ->. exists (c :: cs). split; [constructor; assumption|reflexivity].
Qed.

Local Ltac enc_cases :=
  unfold utf8_encode1;
  repeat match goal with |- context [if ?x <? ?y then _ else _] =>
    first [ replace (x <? y) with true by lia | replace (x <? y) with false by lia ]
  end.

Lemma utf8_spec_of_valid_n n : forall bs, (length bs <= n)%nat -> utf8_valid bs = true -> utf8 bs.
Proof.
  induction n as [|n IH]; intros bs Hlen Hv.
  { destruct bs; [|simpl in Hlen; lia]. exists []. split; [constructor|reflexivity]. }
  destruct bs as [|b1 r1]; [exists []; split; [constructor|reflexivity]|].
  simpl in Hlen, Hv.
  destruct (b1 <? 128) eqn:H1.
  { apply (utf8_cons b1 r1); [left; lia|apply IH; [lia|exact Hv]|].
    unfold utf8_encode1. rewrite H1. reflexivity. }
  destruct r1 as [|b2 r2]; [discriminate|]. simpl in Hlen.
  unfold is_cont, in_range in Hv.
  destruct ((194 <=? b1) && (b1 <=? 223)) eqn:H2.
  { apply andb_prop in Hv; destruct Hv as [Hb Hv].
    apply (utf8_cons ((b1 - 192) * 64 + (b2 - 128)) r2); [left; lia|apply IH; [lia|exact Hv]|].
    enc_cases. list_lia. }
  destruct r2 as [|b3 r3]; [discriminate|]. simpl in Hlen.
  assert (E3 : forall P : bool,
    224 <= b1 <= 239 -> P && utf8_valid r3 = true ->
    (P = true -> 128 <= b2 <= 191 /\ 128 <= b3 <= 191 /\
       (b1 = 224 -> 160 <= b2) /\ (b1 = 237 -> b2 <= 159)) ->
    utf8 (b1 :: b2 :: b3 :: r3)).
  { intros P Hb1 HP Himp. apply andb_prop in HP; destruct HP as [HP Hr].
    destruct (Himp HP) as (Hb2 & Hb3 & Ha & Hd).
    apply (utf8_cons ((b1 - 224) * 4096 + (b2 - 128) * 64 + (b3 - 128)) r3).
    - unfold scalar. destruct (N.eq_dec b1 237); [lia|]. lia.
    - apply IH; [lia|exact Hr].
    - destruct (N.eq_dec b1 224); enc_cases; list_lia. }
  destruct (b1 =? 224) eqn:?; [eapply E3; [lia|exact Hv|lia]|].
  destruct ((225 <=? b1) && (b1 <=? 236)) eqn:?; [eapply E3; [lia|exact Hv|lia]|].
  destruct (b1 =? 237) eqn:?; [eapply E3; [lia|exact Hv|lia]|].
  destruct ((238 <=? b1) && (b1 <=? 239)) eqn:?; [eapply E3; [lia|exact Hv|lia]|].
  destruct r3 as [|b4 r4]; [discriminate|]. simpl in Hlen. clear E3.
  assert (E4 : forall P : bool,
    240 <= b1 <= 244 -> P && utf8_valid r4 = true ->
    (P = true -> 128 <= b2 <= 191 /\ 128 <= b3 <= 191 /\ 128 <= b4 <= 191 /\
       (b1 = 240 -> 144 <= b2) /\ (b1 = 244 -> b2 <= 143)) ->
    utf8 (b1 :: b2 :: b3 :: b4 :: r4)).
  { intros P Hb1 HP Himp. apply andb_prop in HP; destruct HP as [HP Hr].
    destruct (Himp HP) as (Hb2 & Hb3 & Hb4 & Ha & Hd).
    apply (utf8_cons ((b1 - 240) * 262144 + (b2 - 128) * 4096 + (b3 - 128) * 64 + (b4 - 128)) r4).
    - unfold scalar. destruct (N.eq_dec b1 244); destruct (N.eq_dec b1 240); lia.
    - apply IH; [lia|exact Hr].
    - destruct (N.eq_dec b1 240); enc_cases; list_lia. }
  destruct (b1 =? 240) eqn:?; [eapply E4; [lia|exact Hv|lia]|].
  destruct ((241 <=? b1) && (b1 <=? 243)) eqn:?; [eapply E4; [lia|exact Hv|lia]|].
  destruct (b1 =? 244) eqn:?; [eapply E4; [lia|exact Hv|lia]|].
  discriminate.
Qed.

Lemma utf8_valid_iff bs : utf8_valid bs = true <-> utf8 bs.
Proof.
  split; [apply (utf8_spec_of_valid_n (length bs)); lia|apply utf8_valid_of_spec].
Qed.

Lemma utf8_valid_app a b :
  utf8_valid a = true -> utf8_valid b = true -> utf8_valid (a ++ b) = true.
Proof.
  rewrite !utf8_valid_iff. intros (ca & Ha & ->) (cb & Hb & ->).
  exists (ca ++ cb). split; [apply Forall_app; auto|]. rewrite flat_map_app. reflexivity.
Qed.

Lemma utf8_valid_bytes bs : utf8_valid bs = true -> is_bytes bs.
Proof.
  rewrite utf8_valid_iff. intros (cs & Hcs & ->).
  induction Hcs as [|c cs Hc _ IH]; [constructor|].
  simpl. apply is_bytes_app. split; [|exact IH].
  unfold utf8_encode1, scalar, is_bytes, is_byte in *.
  repeat case_if; repeat constructor; lia.
Qed.

(** ASCII strings are valid. *)
Lemma utf8_valid_ascii bs : Forall (fun b => b < 128) bs -> utf8_valid bs = true.
Proof.
  induction 1 as [|b bs Hb _ IH]; [reflexivity|]. simpl.
  replace (b <? 128) with true by lia. exact IH.
Qed.

(** ** Variable byte integer *)

Lemma land_127 b : N.land b 127 = b mod 128.
Proof. change 127 with (N.ones 7). rewrite N.land_ones. reflexivity. Qed.

Lemma lor_128 x : x < 128 -> N.lor x 128 = x + 128.
Proof.
  intros H. apply N.eqb_eq. revert x H.
  apply (sweep 128 (fun x => N.lor x 128 =? x + 128)). vm_compute. reflexivity.
Qed.

Lemma land_128 x : x < 256 -> (N.land x 128 =? 0) = (x <? 128).
Proof.
  intros H. apply Bool.eqb_prop. revert x H.
  apply (sweep 256 (fun x => Bool.eqb (N.land x 128 =? 0) (x <? 128))). vm_compute. reflexivity.
Qed.

(** The encoding in the four (five) ranges. *)
Lemma vbi_enc_1 n : n <= 127 -> vbi_enc n = [n].
Proof.
  intros H. unfold vbi_enc; simpl. replace (0 <? n / 128) with false by lia.
  f_equal. lia.
Qed.
Lemma vbi_enc_2 n : 128 <= n -> n <= 16383 -> vbi_enc n = [n mod 128 + 128; n / 128].
Proof.
  intros H1 H2. unfold vbi_enc; simpl. replace (0 <? n / 128) with true by lia.
  replace (0 <? n / 128 / 128) with false by lia.
  rewrite lor_128 by lia. list_lia.
Qed.
Lemma vbi_enc_3 n : 16384 <= n -> n <= 2097151 ->
  vbi_enc n = [n mod 128 + 128; (n / 128) mod 128 + 128; n / 16384].
Proof.
  intros H1 H2. unfold vbi_enc; simpl. replace (0 <? n / 128) with true by lia.
  replace (0 <? n / 128 / 128) with true by lia.
  replace (0 <? n / 128 / 128 / 128) with false by lia.
  rewrite !lor_128 by lia. list_lia.
Qed.
Lemma vbi_enc_4 n : 2097152 <= n -> n <= 268435455 ->
  vbi_enc n = [n mod 128 + 128; (n / 128) mod 128 + 128; (n / 16384) mod 128 + 128; n / 2097152].
Proof.
  intros H1 H2. unfold vbi_enc; simpl. replace (0 <? n / 128) with true by lia.
  replace (0 <? n / 128 / 128) with true by lia.
  replace (0 <? n / 128 / 128 / 128) with true by lia.
  replace (0 <? n / 128 / 128 / 128 / 128) with false by lia.
  rewrite !lor_128 by lia. list_lia.
Qed.

Lemma vbi_size_spec n : n <= vbi_max -> vbi_size n = Ok (blen (vbi_enc n)).
Proof.
  unfold vbi_max. intros H. unfold vbi_size.
  destruct (n <=? 127) eqn:?; [rewrite vbi_enc_1 by lia; reflexivity|].
  destruct (n <=? 16383) eqn:?; [rewrite vbi_enc_2 by lia; reflexivity|].
  destruct (n <=? 2097151) eqn:?; [rewrite vbi_enc_3 by lia; reflexivity|].
  destruct (n <=? 268435455) eqn:?; [rewrite vbi_enc_4 by lia; reflexivity|]. lia.
Qed.

Lemma vbi_size_panic n : vbi_max < n -> vbi_size n = Panic.
Proof.
  unfold vbi_max, vbi_size. intros H. repeat (case_if; [lia|]). reflexivity.
Qed.

Lemma vbi_size_inv n k : vbi_size n = Ok k -> n <= vbi_max /\ k = blen (vbi_enc n).
Proof.
  intros H. destruct (N.le_gt_cases n vbi_max) as [Hle|Hgt].
  - split; [exact Hle|]. rewrite vbi_size_spec in H by exact Hle. congruence.
  - rewrite vbi_size_panic in H by exact Hgt. discriminate.
Qed.

(** One step of the decoder on the first four bytes, any profile. *)
Lemma u32_mul_small p a b : a * b < two32 -> u32_mul p a b = Ok (a * b).
Proof. intros H. unfold u32_mul. replace (a * b <? two32) with true by lia. reflexivity. Qed.
Lemma u32_add_small p a b : a + b < two32 -> u32_add p a b = Ok (a + b).
Proof. intros H. unfold u32_add. replace (a + b <? two32) with true by lia. reflexivity. Qed.

Lemma vbi_dec_step p m v b r :
  b < 256 -> m <= 2097152 -> v < 268435456 ->
  vbi_dec_loop p m v (b :: r) =
    if b <? 128 then Ok (v + b * m, r) else vbi_dec_loop p (m * 128) (v + (b - 128) * m) r.
Proof.
  intros Hb Hm Hv.
  assert (Hx : b mod 128 * m <= 127 * 2097152) by (apply N.mul_le_mono; lia).
  cbn [vbi_dec_loop]. rewrite land_127, land_128 by exact Hb.
  rewrite u32_mul_small by (unfold two32; lia). simpl bind.
  rewrite u32_add_small by (unfold two32; lia). simpl bind.
  replace (128 * 128 * 128 <? m) with false by lia.
  rewrite u32_mul_small by (unfold two32; lia). simpl bind.
  destruct (b <? 128) eqn:E.
  - replace (b mod 128) with b by lia. reflexivity.
  - replace (b mod 128) with (b - 128) by lia. reflexivity.
Qed.

(** The fifth byte: malformed, or an overflow panic in a checked build. *)
Lemma vbi_dec_fifth p v b r :
  b < 256 -> v < 268435456 ->
  vbi_dec_loop p 268435456 v (b :: r) =
    match p with
    | Debug => if b mod 128 <? 16 then Err (EReason MalformedPacket) else Panic
    | Release => Err (EReason MalformedPacket)
    end.
Proof.
  intros Hb Hv. cbn [vbi_dec_loop]. rewrite land_127.
  unfold u32_mul at 1, two32. destruct (b mod 128 <? 16) eqn:E.
  - replace (b mod 128 * 268435456 <? 4294967296) with true by lia. simpl bind.
    rewrite u32_add_small by (unfold two32; lia). simpl bind.
    change (128 * 128 * 128 <? 268435456) with true. destruct p; reflexivity.
  - replace (b mod 128 * 268435456 <? 4294967296) with false by lia.
    destruct p; [reflexivity|]. simpl bind.
    unfold u32_add. destruct (_ <? two32); reflexivity.
Qed.

(** Complete description of the decoder on byte strings. *)
Definition vbi_spec (p : profile) (bs : bytes) : res (N * bytes) :=
  match bs with
  | [] => Err PacketIncomplete
  | a :: r =>
    if a <? 128 then Ok (a, r) else
    match r with
    | [] => Err PacketIncomplete
    | b :: r =>
      if b <? 128 then Ok ((a - 128) + 128 * b, r) else
      match r with
      | [] => Err PacketIncomplete
      | c :: r =>
        if c <? 128 then Ok ((a - 128) + 128 * ((b - 128) + 128 * c), r) else
        match r with
        | [] => Err PacketIncomplete
        | d :: r =>
          if d <? 128 then Ok ((a - 128) + 128 * ((b - 128) + 128 * ((c - 128) + 128 * d)), r) else
          match r with
          | [] => Err PacketIncomplete
          | e :: _ =>
              match p with
              | Debug => if e mod 128 <? 16 then Err (EReason MalformedPacket) else Panic
              | Release => Err (EReason MalformedPacket)
              end
          end
        end
      end
    end
  end.

Lemma vbi_dec_spec p bs : is_bytes bs -> vbi_dec p bs = vbi_spec p bs.
Proof.
  intros H. unfold vbi_dec, vbi_spec.
  destruct bs as [|a r]; [reflexivity|]. inv H. unfold is_byte in *.
  rewrite vbi_dec_step by (lia || assumption).
  destruct (a <? 128) eqn:Ea; [do 2 f_equal; lia|].
  destruct r as [|b r]; [reflexivity|]. inv H3. unfold is_byte in *.
  rewrite vbi_dec_step by (lia || assumption).
  destruct (b <? 128) eqn:Eb; [do 2 f_equal; lia|].
  destruct r as [|c r]; [reflexivity|]. inv H4. unfold is_byte in *.
  rewrite vbi_dec_step by (lia || assumption).
  destruct (c <? 128) eqn:Ec; [do 2 f_equal; lia|].
  destruct r as [|d r]; [reflexivity|]. inv H5. unfold is_byte in *.
  rewrite vbi_dec_step by (lia || assumption).
  destruct (d <? 128) eqn:Ed; [do 2 f_equal; lia|].
  destruct r as [|e r]; [reflexivity|]. inv H6. unfold is_byte in *.
  change (1 * 128 * 128 * 128 * 128) with 268435456.
  apply vbi_dec_fifth; lia.
Qed.

Lemma vbi_enc_bytes n : n <= vbi_max -> is_bytes (vbi_enc n).
Proof.
  unfold vbi_max. intros H. unfold is_bytes, is_byte.
  destruct (n <=? 127) eqn:?; [rewrite vbi_enc_1 by lia; repeat constructor; lia|].
  destruct (n <=? 16383) eqn:?; [rewrite vbi_enc_2 by lia; repeat constructor; lia|].
  destruct (n <=? 2097151) eqn:?; [rewrite vbi_enc_3 by lia; repeat constructor; lia|].
  rewrite vbi_enc_4 by lia; repeat constructor; lia.
Qed.

Lemma vbi_roundtrip p n r : n <= vbi_max -> vbi_dec p (vbi_enc n ++ r) = Ok (n, r).
Proof.
  unfold vbi_max. intros H. unfold vbi_dec.
  destruct (n <=? 127) eqn:?.
  { rewrite vbi_enc_1 by lia. simpl app. rewrite vbi_dec_step by lia.
    replace (n <? 128) with true by lia. do 2 f_equal; lia. }
  destruct (n <=? 16383) eqn:?.
  { rewrite vbi_enc_2 by lia. simpl app. rewrite vbi_dec_step by lia.
    replace (n mod 128 + 128 <? 128) with false by lia.
    rewrite vbi_dec_step by lia.
    replace (n / 128 <? 128) with true by lia. do 2 f_equal; lia. }
  destruct (n <=? 2097151) eqn:?.
  { rewrite vbi_enc_3 by lia. simpl app. rewrite vbi_dec_step by lia.
    replace (n mod 128 + 128 <? 128) with false by lia.
    rewrite vbi_dec_step by lia.
    replace ((n / 128) mod 128 + 128 <? 128) with false by lia.
    rewrite vbi_dec_step by lia.
    replace (n / 16384 <? 128) with true by lia. do 2 f_equal; lia. }
  rewrite vbi_enc_4 by lia. simpl app. rewrite vbi_dec_step by lia.
  replace (n mod 128 + 128 <? 128) with false by lia.
  rewrite vbi_dec_step by lia.
  replace ((n / 128) mod 128 + 128 <? 128) with false by lia.
  rewrite vbi_dec_step by lia.
  replace ((n / 16384) mod 128 + 128 <? 128) with false by lia.
  rewrite vbi_dec_step by lia.
  replace (n / 2097152 <? 128) with true by lia. do 2 f_equal; lia.
Qed.

Lemma vbi_enc_len n : n <= vbi_max -> 1 <= blen (vbi_enc n) <= 4.
Proof.
  unfold vbi_max. intros H.
  destruct (n <=? 127) eqn:?; [rewrite vbi_enc_1 by lia; unfold blen; simpl; lia|].
  destruct (n <=? 16383) eqn:?; [rewrite vbi_enc_2 by lia; unfold blen; simpl; lia|].
  destruct (n <=? 2097151) eqn:?; [rewrite vbi_enc_3 by lia; unfold blen; simpl; lia|].
  rewrite vbi_enc_4 by lia; unfold blen; simpl; lia.
Qed.

Lemma vbi_enc_denotes n : n <= vbi_max -> vbi_denotes (vbi_enc n) n.
Proof.
  unfold vbi_max. intros H.
  destruct (n <=? 127) eqn:?; [rewrite vbi_enc_1 by lia; constructor; lia|].
  destruct (n <=? 16383) eqn:?.
  { rewrite vbi_enc_2 by lia.
    replace n with ((n mod 128 + 128 - 128) + 128 * (n / 128)) at 3 by lia.
    repeat constructor; lia. }
  destruct (n <=? 2097151) eqn:?.
  { rewrite vbi_enc_3 by lia.
    replace n with ((n mod 128 + 128 - 128) + 128 * (((n / 128) mod 128 + 128 - 128) + 128 * (n / 16384))) at 4 by lia.
    repeat constructor; lia. }
  rewrite vbi_enc_4 by lia.
  replace n with ((n mod 128 + 128 - 128) + 128 * (((n / 128) mod 128 + 128 - 128)
     + 128 * (((n / 16384) mod 128 + 128 - 128) + 128 * (n / 2097152)))) at 5 by lia.
  repeat constructor; lia.
Qed.

(** A digit string of k digits denotes a value below 128^k; hence minimality. *)
Lemma vbi_denotes_bound bs n : vbi_denotes bs n -> n < 128 ^ blen bs.
Proof.
  induction 1 as [b Hb|b bs n Hb1 Hb2 _ IH].
  - rewrite blen_cons, blen_nil. simpl. lia.
  - rewrite blen_cons, N.pow_add_r. change (128 ^ 1) with 128. lia.
Qed.

Lemma vbi_enc_minimal n bs : n <= vbi_max -> vbi_denotes bs n -> blen (vbi_enc n) <= blen bs.
Proof.
  intros Hn H. pose proof (vbi_denotes_bound _ _ H) as Hb. unfold vbi_max in Hn.
  assert (Hpow : forall k, blen bs <= k -> n < 128 ^ k).
  { intros k Hk. eapply N.lt_le_trans; [exact Hb|]. apply N.pow_le_mono_r; lia. }
  destruct (n <=? 127) eqn:?.
  { rewrite vbi_enc_1 by lia. inversion H; rewrite ?blen_cons, ?blen_nil; lia. }
  destruct (n <=? 16383) eqn:?.
  { rewrite vbi_enc_2 by lia. rewrite !blen_cons, blen_nil.
    destruct (N.le_gt_cases (blen bs) 1) as [Hk|]; [|lia].
    specialize (Hpow 1 Hk). change (128 ^ 1) with 128 in Hpow. lia. }
  destruct (n <=? 2097151) eqn:?.
  { rewrite vbi_enc_3 by lia. rewrite !blen_cons, blen_nil.
    destruct (N.le_gt_cases (blen bs) 2) as [Hk|]; [|lia].
    specialize (Hpow 2 Hk). change (128 ^ 2) with 16384 in Hpow. lia. }
  rewrite vbi_enc_4 by lia. rewrite !blen_cons, blen_nil.
  destruct (N.le_gt_cases (blen bs) 3) as [Hk|]; [|lia].
  specialize (Hpow 3 Hk). change (128 ^ 3) with 2097152 in Hpow. lia.
Qed.

(** What a successful decode says. *)
Lemma vbi_dec_ok p bs n r :
  is_bytes bs -> vbi_dec p bs = Ok (n, r) ->
  exists pre, bs = pre ++ r /\ vbi_denotes pre n /\ 1 <= blen pre <= 4 /\ n <= vbi_max.
Proof.
  intros Hb H. rewrite vbi_dec_spec in H by exact Hb. unfold vbi_spec in H. unfold vbi_max.
  destruct bs as [|a t]; [discriminate|]. inv Hb. unfold is_byte in *.
  destruct (a <? 128) eqn:Ea.
  { inv H. exists [n]. repeat split; try (constructor; lia); unfold blen; simpl; lia. }
  destruct t as [|b t]; [discriminate|]. inv H3. unfold is_byte in *.
  destruct (b <? 128) eqn:Eb.
  { inv H. exists [a; b]. repeat split; try (repeat constructor; lia); unfold blen; simpl; lia. }
  destruct t as [|c t]; [discriminate|]. inv H5. unfold is_byte in *.
  destruct (c <? 128) eqn:Ec.
  { inv H. exists [a; b; c]. repeat split; try (repeat constructor; lia); unfold blen; simpl; lia. }
  destruct t as [|d t]; [discriminate|]. inv H6. unfold is_byte in *.
  destruct (d <? 128) eqn:Ed.
  { inv H. exists [a; b; c; d]. repeat split; try (repeat constructor; lia); unfold blen; simpl; lia. }
  destruct t as [|e t]; [discriminate|]. destruct p; [case_if|]; discriminate.
Qed.

Lemma vbi_dec_no_panic_release bs : is_bytes bs -> vbi_dec Release bs <> Panic.
Proof.
  intros Hb. rewrite vbi_dec_spec by exact Hb. unfold vbi_spec.
  repeat (case_match; try discriminate).
Qed.

Lemma vbi_dec_err p bs e :
  is_bytes bs -> vbi_dec p bs = Err e -> e = PacketIncomplete \/ e = EReason MalformedPacket.
Proof.
  intros Hb. rewrite vbi_dec_spec by exact Hb. unfold vbi_spec.
  repeat (case_match; try discriminate); intros H; inv H; auto.
Qed.

(** ** Integers and data *)

Lemma u16_roundtrip x r : x < 65536 -> u16_dec (u16_enc x ++ r) = Ok (x, r).
Proof. intros H. simpl. do 2 f_equal. lia. Qed.
Lemma u32_roundtrip x r : x < two32 -> u32_dec (u32_enc x ++ r) = Ok (x, r).
Proof. unfold two32. intros H. simpl. do 2 f_equal. lia. Qed.
Lemma bool_roundtrip b r : bool_dec (bool_enc b ++ r) = Ok (b, r).
Proof. destruct b; reflexivity. Qed.

Lemma u16_enc_bytes x : x < 65536 -> is_bytes (u16_enc x).
Proof. intros H. repeat constructor; unfold is_byte; lia. Qed.
Lemma u32_enc_bytes x : x < two32 -> is_bytes (u32_enc x).
Proof. unfold two32; intros H. repeat constructor; unfold is_byte; lia. Qed.

Lemma bin_roundtrip d r : blen d < 65536 -> bin_dec (bin_enc d ++ r) = Ok (d, r).
Proof.
  intros H. unfold bin_enc, bin_dec, u16_enc, two16.
  rewrite (N.mod_small (blen d)) by lia. rewrite <- app_assoc. cbn [app]. cbv zeta.
  replace (blen d / 256 * 256 + blen d mod 256) with (blen d) by lia.
  rewrite blen_app. replace (blen d + blen r <? blen d) with false by lia.
  rewrite btake_app, bdrop_app. reflexivity.
Qed.

Lemma str_roundtrip s r :
  blen s < 65536 -> utf8_valid s = true -> str_dec (str_enc s ++ r) = Ok (s, r).
Proof.
  intros H Hu. unfold str_enc, str_dec, u16_enc, two16.
  rewrite (N.mod_small (blen s)) by lia. rewrite <- app_assoc. cbn [app]. cbv zeta.
  replace (blen s / 256 * 256 + blen s mod 256) with (blen s) by lia.
  rewrite blen_app. replace (blen s + blen r <? blen s) with false by lia.
  rewrite btake_app, bdrop_app, Hu. reflexivity.
Qed.

Lemma blen_bin_enc d : blen (bin_enc d) = bin_size d.
Proof. unfold bin_enc, bin_size. rewrite blen_app. unfold blen at 1; simpl; lia. Qed.
Lemma blen_str_enc s : blen (str_enc s) = str_size s.
Proof. unfold str_enc, str_size. rewrite blen_app. unfold blen at 1; simpl; lia. Qed.

Lemma bin_enc_bytes d : is_bytes d -> is_bytes (bin_enc d).
Proof.
  intros H. apply is_bytes_app; split; [|exact H].
  apply u16_enc_bytes. unfold two16; lia.
Qed.
Lemma str_enc_bytes s : utf8_valid s = true -> is_bytes (str_enc s).
Proof. intros H. apply (bin_enc_bytes s), utf8_valid_bytes, H. Qed.

(** ** Reason codes *)
Lemma reason_code_byte r : get_code r < 256.
Proof. destruct r; vm_compute; reflexivity. Qed.

Lemma bytes_eqb_eq a b : bytes_eqb a b = true <-> a = b.
Proof.
  revert b; induction a as [|x a IH]; intros [|y b]; simpl; try (split; congruence).
  rewrite andb_true_iff, IH. split; [intros [H ->]; f_equal; lia|].
  intros H; inv H. split; [lia|reflexivity].
Qed.
Lemma bytes_eqb_refl a : bytes_eqb a a = true.
Proof. apply bytes_eqb_eq; reflexivity. Qed.
Lemma bytes_eqb_neq a b : bytes_eqb a b = false <-> a <> b.
Proof.
  split; [intros H E; apply bytes_eqb_eq in E; congruence|].
  intros H. destruct (bytes_eqb a b) eqn:E; [apply bytes_eqb_eq in E; congruence|reflexivity].
Qed.
