(** Proofs about the value codecs. *)
From Verif Require Import CBase PBase MCodec SCodec.

(** ** Bit masks *)
Lemma byte_cases (P : Z -> bool) : forallb P (map Z.of_nat (seq 0 256)) = true -> forall b, is_byte b -> P b = true.
Proof.
  intros H b Hb. rewrite forallb_forall in H. apply H. apply in_map_iff. exists (Z.to_nat b).
  unfold is_byte in Hb. split; [lia|]. apply in_seq. lia.
Qed.
Ltac by_bytes b H :=
  apply Z.eqb_eq; revert b H; apply byte_cases; vm_compute; reflexivity.

Lemma xor_ff b : is_byte b -> Z.lxor b 0xFF = 255 - b.
Proof. intros H. by_bytes b H. Qed.
Lemma land_80 b : is_byte b -> Z.land b 0x80 = (if b <? 128 then 0 else 128).
Proof. intros H. by_bytes b H. Qed.
Lemma land_40 b : is_byte b -> Z.land b 0x40 = 64 * ((b / 64) mod 2).
Proof. intros H. by_bytes b H. Qed.
Lemma land_60 b : is_byte b -> Z.shiftr (Z.land b 0x60) 5 = (b / 32) mod 4.
Proof. intros H. by_bytes b H. Qed.
Lemma land_E0 b : is_byte b -> Z.shiftr (Z.land b 0xE0) 5 = b / 32.
Proof. intros H. by_bytes b H. Qed.
Lemma land_F0 b : is_byte b -> Z.shiftr (Z.land b 0xF0) 1 = 8 * (b / 16).
Proof. intros H. by_bytes b H. Qed.
Lemma lor_F0 b : is_byte b -> Z.lor b 0xF0 = 240 + b mod 16.
Proof. intros H. by_bytes b H. Qed.
Lemma land_mask x n : 0 <= n -> Z.land x (Z.ones n) = x mod 2 ^ n.
Proof. intros. apply Z.land_ones. assumption. Qed.
Lemma land_3F x : Z.land x 0x3F = x mod 64.
Proof. change 0x3F with (Z.ones 6). apply land_mask. lia. Qed.
Lemma land_1F x : Z.land x 0x1F = x mod 32.
Proof. change 0x1F with (Z.ones 5). apply land_mask. lia. Qed.
Lemma land_0F x : Z.land x 0xF = x mod 16.
Proof. change 0xF with (Z.ones 4). apply land_mask. lia. Qed.
Lemma land_FF x : Z.land x 0xFF = x mod 256.
Proof. change 0xFF with (Z.ones 8). apply land_mask. lia. Qed.
Lemma shiftr_div x n : 0 <= n -> Z.shiftr x n = x / 2 ^ n.
Proof. apply Z.shiftr_div_pow2. Qed.
Lemma shiftl_mul x n : 0 <= n -> Z.shiftl x n = x * 2 ^ n.
Proof. apply Z.shiftl_mul_pow2. Qed.

Lemma lor_disjoint a k n : 0 <= n -> 0 <= a < 2 ^ n -> Z.lor a (k * 2 ^ n) = a + k * 2 ^ n.
Proof.
  intros Hn Ha. assert (E : Z.land a (k * 2 ^ n) = 0).
  { apply Z.bits_inj_0. intros i. rewrite Z.land_spec.
    destruct (Z.lt_ge_cases i 0); [rewrite Z.testbit_neg_r by assumption; reflexivity|].
    destruct (Z.lt_ge_cases i n).
    - rewrite Z.mul_pow2_bits_low by assumption. apply andb_false_r.
    - rewrite <- (Z.mod_small a (2 ^ n)) by assumption. rewrite Z.mod_pow2_bits_high by lia. reflexivity. }
  rewrite Z.add_nocarry_lxor, Z.lxor_lor by exact E. reflexivity.
Qed.
Lemma lor8 a k : 0 <= a < 8 -> Z.lor a (8 * k) = a + 8 * k.
Proof. intros H. rewrite Z.mul_comm. apply (lor_disjoint a k 3); [lia|exact H]. Qed.

(** ** Little-endian values *)
Lemma le_bounds l : bytes l -> 0 <= le l < 256 ^ Z.of_nat (length l).
Proof.
  induction 1 as [|b l Hb Hl IH]; cbn [le fold_right length]; [cbn; lia|].
  fold (le l). rewrite Nat2Z.inj_succ, Z.pow_succ_r by lia. unfold is_byte in Hb. lia.
Qed.
Lemma le_snoc l b : le (l ++ [b]) = le l + b * 256 ^ Z.of_nat (length l).
Proof.
  induction l as [|x l IH]; cbn [app le fold_right length]; [cbn; lia|].
  fold (le l) (le (l ++ [b])). rewrite IH, Nat2Z.inj_succ, Z.pow_succ_r by lia. lia.
Qed.
Lemma firstn_snoc (l : list Z) i : (i < length l)%nat -> firstn (S i) l = firstn i l ++ [nth i l 0].
Proof.
  revert l. induction i as [|i IH]; intros [|x l] H; cbn in *; try lia; [reflexivity|].
  rewrite <- IH by lia. reflexivity.
Qed.
Lemma pow256 i : 256 ^ Z.of_nat i = 2 ^ (8 * Z.of_nat i).
Proof. rewrite Z.pow_mul_r by lia. reflexivity. Qed.

Definition fits_op (op : Z -> res Z) (M : Z) : Prop := forall x, 0 <= x <= M -> op x = Ok x.

Lemma int_loop_ok op M i : forall d neg v, fits_op op M -> bytes d -> (i <= length d)%nat -> 0 <= v ->
  (v + 1) * 256 ^ Z.of_nat i <= M + 1 ->
  int_loop op i d neg v = Ok (v * 256 ^ Z.of_nat i +
     (if neg then 256 ^ Z.of_nat i - 1 - le (firstn i d) else le (firstn i d))).
Proof.
  induction i as [|i IH]; intros d neg v Hop Hb Hl Hv HM.
  - cbn [int_loop firstn le fold_right Z.of_nat]. rewrite Z.pow_0_r. f_equal. destruct neg; lia.
  - cbn [int_loop]. rewrite rd_ok by lia. cbn [bind]. unfold shl8.
    destruct (Z.ltb_spec v 0); [lia|].
    rewrite Nat2Z.inj_succ, Z.pow_succ_r in * by lia.
    assert (Hp : 1 <= 256 ^ Z.of_nat i) by (apply (Z.pow_le_mono_r 256 0); lia).
    set (p := 256 ^ Z.of_nat i) in *.
    assert (Hbd := bytes_nth d i Hb ltac:(lia)). set (b := nth i d 0) in *. unfold is_byte in Hbd.
    assert (Hx : 0 <= v * 256 + 255 <= M) by nia.
    rewrite Hop by lia. cbn [bind].
    assert (Hb' : 0 <= (if neg then Z.lxor b 255 else b) <= 255).
    { destruct neg; [rewrite xor_ff by exact Hbd|]; lia. }
    rewrite Hop by lia. cbn [bind].
    rewrite IH; auto; try lia; [|fold p; nia].
    fold p. rewrite firstn_snoc, le_snoc by lia. fold b.
    rewrite firstn_length. replace (Nat.min i (length d)) with i by lia. fold p.
    f_equal. destruct neg; [rewrite xor_ff by exact Hbd|]; lia.
Qed.

Lemma int_decode_gen_ok op M n d : fits_op op M -> (forall x, -M - 1 <= x <= 0 -> op x = Ok x) ->
  bytes d -> (1 <= n <= length d)%nat ->
  2 ^ (8 * Z.of_nat n - 1) <= M + 1 ->
  int_decode_gen op d n = Ok (0, twos n (le (firstn n d))).
Proof.
  intros Hop Hneg Hb Hn HM. unfold int_decode_gen. destruct (Nat.ltb_spec n 1); [lia|].
  destruct n as [|k]; [lia|]. replace (S k - 1)%nat with k by lia.
  rewrite rd_ok by lia. cbn [bind].
  assert (Hbd := bytes_nth d k Hb ltac:(lia)). rewrite land_80 by exact Hbd.
  set (b := nth k d 0) in *. unfold is_byte in Hbd.
  assert (El : le (firstn (S k) d) = le (firstn k d) + b * 256 ^ Z.of_nat k).
  { rewrite firstn_snoc, le_snoc, firstn_length by lia. replace (Nat.min k (length d)) with k by lia. reflexivity. }
  assert (Bk := le_bounds (firstn k d) (bytes_firstn k d Hb)). rewrite firstn_length in Bk.
  replace (Nat.min k (length d)) with k in Bk by lia.
  assert (E1 : 2 ^ (8 * Z.of_nat (S k) - 1) = 128 * 256 ^ Z.of_nat k).
  { rewrite pow256. replace (8 * Z.of_nat (S k) - 1) with (7 + 8 * Z.of_nat k) by lia.
    rewrite Z.pow_add_r by lia. reflexivity. }
  assert (E2 : 2 ^ (8 * Z.of_nat (S k)) = 256 * 256 ^ Z.of_nat k).
  { rewrite pow256. replace (8 * Z.of_nat (S k)) with (8 + 8 * Z.of_nat k) by lia.
    rewrite Z.pow_add_r by lia. reflexivity. }
  rewrite E1 in HM. unfold twos. rewrite E1, E2, El.
  assert (Hp : 1 <= 256 ^ Z.of_nat k) by (apply (Z.pow_le_mono_r 256 0); lia).
  set (p := 256 ^ Z.of_nat k) in *.
  (* first iteration by hand, as the top byte is below 128 *)
  cbn [int_loop]. rewrite rd_ok by lia. fold b. cbn [bind]. unfold shl8 at 1.
  change (0 <? 0) with false. cbv iota. rewrite Hop by nia. cbn [bind].
  destruct (Z.ltb_spec b 128) as [Hlt|Hge].
  - change (negb (0 =? 0)) with false. cbv iota.
    rewrite Hop by nia. cbn [bind].
    rewrite (int_loop_ok op M k d false) ; auto; try lia; [|fold p; nia].
    fold p. cbn [bind]. destruct (Z.ltb_spec (le (firstn k d) + b * p) (128 * p)); [|nia].
    f_equal. f_equal. lia.
  - change (negb (128 =? 0)) with true. cbv iota. rewrite xor_ff by exact Hbd.
    rewrite Hop by nia. cbn [bind].
    rewrite (int_loop_ok op M k d true) ; auto; try lia; [|fold p; nia].
    fold p. cbn [bind]. destruct (Z.ltb_spec (le (firstn k d) + b * p) (128 * p)); [nia|].
    rewrite Hneg by nia. cbn [bind]. rewrite Hneg by nia. cbn [bind].
    f_equal. f_equal. lia.
Qed.

Lemma int_op_fits : fits_op int_op INT_MAX.
Proof. intros x H. unfold int_op, in_int, INT_MIN, INT_MAX in *. destruct (Z.leb_spec (-2147483648) x), (Z.leb_spec x 2147483647); cbn; try reflexivity; lia. Qed.
Lemma llong_op_fits : fits_op llong_op LLONG_MAX.
Proof. intros x H. unfold llong_op, in_llong, LLONG_MIN, LLONG_MAX in *. destruct (Z.leb_spec (-9223372036854775808) x), (Z.leb_spec x 9223372036854775807); cbn; try reflexivity; lia. Qed.
Lemma int_op_ok x : INT_MIN <= x <= INT_MAX -> int_op x = Ok x.
Proof. intros H. unfold int_op, in_int. destruct (Z.leb_spec INT_MIN x), (Z.leb_spec x INT_MAX); cbn; try reflexivity; lia. Qed.
Lemma llong_op_ok x : LLONG_MIN <= x <= LLONG_MAX -> llong_op x = Ok x.
Proof. intros H. unfold llong_op, in_llong. destruct (Z.leb_spec LLONG_MIN x), (Z.leb_spec x LLONG_MAX); cbn; try reflexivity; lia. Qed.

Lemma int_decode_spec d n : bytes d -> (1 <= n <= 4)%nat -> (n <= length d)%nat ->
  mbus_data_int_decode d n = Ok (0, twos n (le (firstn n d))).
Proof.
  intros Hb Hn Hl. apply (int_decode_gen_ok int_op INT_MAX); auto using int_op_fits; try lia.
  - intros x Hx. apply int_op_ok. unfold INT_MAX, INT_MIN in *. lia.
  - unfold INT_MAX. change (2147483647 + 1) with (2 ^ 31). apply Z.pow_le_mono_r; lia.
Qed.
Lemma long_long_decode_spec d n : bytes d -> (1 <= n <= 8)%nat -> (n <= length d)%nat ->
  mbus_data_long_long_decode d n = Ok (0, twos n (le (firstn n d))).
Proof.
  intros Hb Hn Hl. apply (int_decode_gen_ok llong_op LLONG_MAX); auto using llong_op_fits; try lia.
  - intros x Hx. apply llong_op_ok. unfold LLONG_MAX, LLONG_MIN in *. lia.
  - unfold LLONG_MAX. change (9223372036854775807 + 1) with (2 ^ 63). apply Z.pow_le_mono_r; lia.
Qed.

(** ** Integer encoding *)
Lemma int_encode_loop_ok n : forall i d v, (i + n <= length d)%nat -> (i + n <= 4)%nat ->
  exists d', int_encode_loop n i d v = Ok d' /\ length d' = length d /\
    firstn i d' = firstn i d /\ skipn (i + n) d' = skipn (i + n) d /\
    le (firstn n (skipn i d')) = (v / 256 ^ Z.of_nat i) mod 256 ^ Z.of_nat n /\
    bytes (firstn n (skipn i d')).
Proof.
  induction n as [|n IH]; intros i d v Hl H4.
  - exists d. cbn [int_encode_loop]. repeat split; auto; [|constructor].
    cbn. rewrite Z.mod_1_r. reflexivity.
  - cbn [int_encode_loop]. destruct (Nat.leb_spec 4 i); [lia|]. rewrite wr_ok by lia. cbn [bind].
    assert (Hfl : length (firstn i d) = i) by (rewrite firstn_length; lia).
    set (x := Z.land _ _).
    assert (Ex : x = (v / 256 ^ Z.of_nat i) mod 256).
    { unfold x. rewrite land_FF, Z.shiftr_div_pow2, pow256 by lia. do 3 f_equal. lia. }
    assert (Bx : is_byte x) by (rewrite Ex; unfold is_byte; lia).
    destruct (IH (S i) (upd d i x) v) as (d' & H1 & H2 & H3 & H5 & H6 & H7).
    { rewrite upd_length. clear - Hl. lia. } { clear - H4. lia. }
    rewrite upd_length in H2. assert (Hld : (i < length d')%nat) by (clear - Hl H2; lia).
    assert (Hli : (i < length d)%nat) by (clear - Hl; lia).
    exists d'. split; [exact H1|]. split; [exact H2|].
    rewrite upd_splice in H3 by exact Hli.
    assert (Ef : firstn (S i) d' = firstn i d ++ [x]).
    { rewrite H3. replace (firstn i d ++ x :: skipn (S i) d) with ((firstn i d ++ [x]) ++ skipn (S i) d)
        by (rewrite <- app_assoc; reflexivity).
      apply firstn_app_exact. rewrite app_length, Hfl. cbn. clear. lia. }
    assert (Ei : nth i d' 0 = x /\ firstn i d' = firstn i d).
    { rewrite firstn_snoc in Ef by exact Hld. apply app_inj_tail in Ef. tauto. }
    destruct Ei as [Ei Ei2]. split; [exact Ei2|].
    split. { replace (i + S n)%nat with (S i + n)%nat by (clear; lia). rewrite H5. rewrite upd_splice by exact Hli.
      replace (S i + n)%nat with (n + S i)%nat by (clear; lia). rewrite <- !skipn_add.
      f_equal. rewrite skipn_app, skipn_all2, Hfl by (rewrite Hfl; clear; lia).
      replace (S i - i)%nat with 1%nat by (clear; lia). reflexivity. }
    assert (Es : skipn i d' = x :: skipn (S i) d').
    { rewrite <- Ei. clear - Hld. rename Hld into H.
      revert d' H. induction i as [|i IH]; intros [|y d'] H; cbn in *; try lia; [reflexivity|].
      rewrite IH by lia. reflexivity. }
    rewrite Es. cbn [firstn le fold_right]. fold (le (firstn n (skipn (S i) d'))). rewrite H6.
    split; [|apply bytes_cons; auto].
    rewrite Ex. rewrite !Nat2Z.inj_succ, !Z.pow_succ_r by lia.
    assert (P1 : 0 < 256 ^ Z.of_nat i) by (apply Z.pow_pos_nonneg; lia).
    assert (P2 : 0 < 256 ^ Z.of_nat n) by (apply Z.pow_pos_nonneg; lia).
    rewrite (Z.mul_comm 256 (256 ^ Z.of_nat i)), <- Z.div_div by (clear - P1; lia).
    set (q := v / 256 ^ Z.of_nat i).
    rewrite (Z.rem_mul_r q 256 (256 ^ Z.of_nat n)) by (clear - P2; lia). reflexivity.
Qed.

Lemma int_encode_spec d n v : (n <= length d)%nat -> (n <= 4)%nat ->
  exists d', mbus_data_int_encode d n v = Ok d' /\ length d' = length d /\
    skipn n d' = skipn n d /\ le (firstn n d') = v mod 2 ^ (8 * Z.of_nat n) /\ bytes (firstn n d').
Proof.
  intros Hl H4. destruct (int_encode_loop_ok n 0 d v Hl H4) as (d' & H1 & H2 & _ & H3 & H5 & H6).
  exists d'. rewrite <- pow256. cbn [Z.of_nat skipn plus] in *. change (256 ^ 0) with 1 in H5.
  rewrite Z.div_1_r in H5. auto.
Qed.

Lemma int_decode_firstn op d n : (n <= length d)%nat -> int_decode_gen op d n = int_decode_gen op (firstn n d) n.
Proof.
  intros Hl. unfold int_decode_gen. destruct (Nat.ltb_spec n 1); [reflexivity|].
  assert (R : forall i, (i < n)%nat -> rd d i = rd (firstn n d) i).
  { intros i Hi. rewrite <- (firstn_skipn n d) at 1. apply rd_app1. rewrite firstn_length. lia. }
  rewrite R by lia.
  assert (L : forall i neg v, (i <= n)%nat -> int_loop op i d neg v = int_loop op i (firstn n d) neg v).
  { induction i; intros; cbn [int_loop]; [reflexivity|]. rewrite R by lia.
    destruct (rd (firstn n d) i); cbn [bind]; [|reflexivity].
    destruct (shl8 op v); cbn [bind]; [|reflexivity].
    destruct (op _); cbn [bind]; [|reflexivity]. apply IHi. lia. }
  destruct (rd (firstn n d) (n - 1)); cbn [bind]; [|reflexivity].
  rewrite L by lia. reflexivity.
Qed.

Lemma wrap_signed_id n v : (1 <= n)%nat -> - 2 ^ (8 * Z.of_nat n - 1) <= v < 2 ^ (8 * Z.of_nat n - 1) ->
  wrap_signed n v = v.
Proof.
  intros Hn Hv. unfold wrap_signed, twos.
  assert (E : 2 ^ (8 * Z.of_nat n) = 2 * 2 ^ (8 * Z.of_nat n - 1)).
  { rewrite <- Z.pow_succ_r by lia. f_equal. lia. }
  rewrite E. set (h := 2 ^ (8 * Z.of_nat n - 1)) in *.
  destruct (Z.lt_ge_cases v 0) as [Hneg|Hpos].
  - replace (v mod (2 * h)) with (v + 2 * h) by (rewrite <- (Z.mod_add v 1 (2 * h)) by lia; rewrite Z.mod_small; lia).
    destruct (Z.ltb_spec (v + 2 * h) h); lia.
  - rewrite Z.mod_small by lia. destruct (Z.ltb_spec v h); lia.
Qed.

Lemma encode_decode d n v : (1 <= n <= 4)%nat -> (n <= length d)%nat ->
  exists d', mbus_data_int_encode d n v = Ok d' /\
    mbus_data_int_decode d' n = Ok (0, wrap_signed n v).
Proof.
  intros Hn Hl. destruct (int_encode_spec d n v Hl ltac:(lia)) as (d' & H1 & H2 & H3 & H4 & H5).
  exists d'. split; [exact H1|].
  unfold mbus_data_int_decode. rewrite int_decode_firstn by lia.
  fold (mbus_data_int_decode (firstn n d') n).
  rewrite int_decode_spec; auto; [|rewrite firstn_length; lia].
  rewrite firstn_firstn, Nat.min_id, H4. reflexivity.
Qed.
