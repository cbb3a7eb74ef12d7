(** Proofs about the value codecs, part 2: BCD, manufacturer, dates, strings, floats. *)
From Verif Require Import CBase PBase MCodec SCodec PCodec.

(** ** BCD decoding *)
Definition bcd2 (b : Z) : Z := (if b / 16 <? 10 then 10 * (b / 16) else 0) + b mod 16.
Definition bcdval (l : list Z) : Z := fold_right (fun b a => bcd2 b + 100 * a) 0 l.

Lemma bcd2_bound b : is_byte b -> 0 <= bcd2 b <= 105.
Proof. unfold is_byte, bcd2. intros H. destruct (Z.ltb_spec (b / 16) 10); lia. Qed.
Lemma bcdval_bound l : bytes l -> 0 <= bcdval l <= 2 * 100 ^ Z.of_nat (length l) - 2.
Proof.
  induction 1 as [|b l Hb Hl IH]; cbn [bcdval fold_right length]; [cbn; lia|]. fold (bcdval l).
  rewrite Nat2Z.inj_succ, Z.pow_succ_r by lia. apply bcd2_bound in Hb. lia.
Qed.
Lemma bcdval_snoc l b : bcdval (l ++ [b]) = bcdval l + bcd2 b * 100 ^ Z.of_nat (length l).
Proof.
  induction l as [|x l IH]; cbn [app bcdval fold_right length]; [cbn; lia|].
  fold (bcdval l) (bcdval (l ++ [b])). rewrite IH, Nat2Z.inj_succ, Z.pow_succ_r by lia. lia.
Qed.

Lemma bcd_loop_ok i : forall d v, bytes d -> (i <= length d)%nat -> 0 <= v ->
  (v + 2) * 100 ^ Z.of_nat i <= LLONG_MAX ->
  bcd_decode_loop i d v = Ok (v * 100 ^ Z.of_nat i + bcdval (firstn i d)).
Proof.
  induction i as [|i IH]; intros d v Hb Hl Hv HM.
  - cbn [bcd_decode_loop firstn bcdval fold_right Z.of_nat]. rewrite Z.pow_0_r. f_equal. lia.
  - cbn [bcd_decode_loop]. rewrite rd_ok by lia. cbn [bind].
    rewrite Nat2Z.inj_succ, Z.pow_succ_r in * by lia.
    assert (Hp : 1 <= 100 ^ Z.of_nat i) by (apply (Z.pow_le_mono_r 100 0); lia).
    rewrite firstn_snoc, bcdval_snoc, firstn_length by lia.
    replace (Nat.min i (length d)) with i by lia.
    assert (Hbd := bytes_nth d i Hb ltac:(lia)). set (b := nth i d 0) in *.
    pose proof (bcd2_bound b Hbd) as B2. unfold is_byte in Hbd.
    set (p := 100 ^ Z.of_nat i) in *.
    assert (Hx : 0 <= (v + 2) * 100 <= LLONG_MAX) by nia.
    assert (HL : LLONG_MIN <= 0) by (unfold LLONG_MIN; lia).
    rewrite (llong_op_ok (v * 10)) by lia. cbn [bind].
    rewrite shiftr_div by lia. change (2 ^ 4) with 16. rewrite !land_0F.
    assert (Hhi : (b / 16) mod 16 = b / 16) by lia. rewrite Hhi.
    assert (E : (if b / 16 <? 10 then llong_op (v * 10 + b / 16) else Ok (v * 10))
                = Ok (v * 10 + (if b / 16 <? 10 then b / 16 else 0))).
    { destruct (Z.ltb_spec (b / 16) 10); [rewrite llong_op_ok by lia; reflexivity|f_equal; lia]. }
    rewrite E. cbn [bind]. clear E.
    assert (Hh : 0 <= (if b / 16 <? 10 then b / 16 else 0) <= 9) by (destruct (Z.ltb_spec (b / 16) 10); lia).
    assert (E2 : bcd2 b = 10 * (if b / 16 <? 10 then b / 16 else 0) + b mod 16).
    { unfold bcd2. destruct (Z.ltb_spec (b / 16) 10); lia. }
    set (h := if b / 16 <? 10 then b / 16 else 0) in *.
    assert (Hlo : 0 <= b mod 16 <= 15) by lia. set (lo := b mod 16) in *. clearbody h lo.
    rewrite (llong_op_ok ((v * 10 + h) * 10)) by lia. cbn [bind].
    rewrite llong_op_ok by lia. cbn [bind].
    rewrite IH; auto; try lia; [|fold p; nia].
    fold p. f_equal. rewrite E2. lia.
Qed.

Lemma bcd_decode_gen d n : bytes d -> (1 <= n <= 9)%nat -> (n <= length d)%nat ->
  mbus_data_bcd_decode d n
  = Ok (if nth (n - 1) d 0 / 16 =? 15 then - bcdval (firstn n d) else bcdval (firstn n d)).
Proof.
  intros Hb Hn Hl. unfold mbus_data_bcd_decode.
  assert (P : 100 ^ Z.of_nat n <= 100 ^ 9) by (apply Z.pow_le_mono_r; lia).
  change (100 ^ 9) with 1000000000000000000 in P.
  rewrite bcd_loop_ok; auto; [|lia|unfold LLONG_MAX; lia].
  cbn [bind]. rewrite Z.mul_0_l, Z.add_0_l.
  pose proof (bcdval_bound (firstn n d) (bytes_firstn n d Hb)) as B. rewrite firstn_length in B.
  replace (Nat.min n (length d)) with n in B by lia.
  destruct n as [|k]; [lia|]. replace (S k - 1)%nat with k by lia. rewrite rd_ok by lia. cbn [bind].
  rewrite shiftr_div by lia. change (2 ^ 4) with 16.
  destruct (Z.eqb_spec (nth k d 0 / 16) 15); [|reflexivity].
  rewrite llong_op_ok by (unfold LLONG_MIN, LLONG_MAX; lia). f_equal. lia.
Qed.

Lemma pack_length ds : length (pack_digits ds) = length ds.
Proof. induction ds as [|[lo hi] ds IH]; cbn; congruence. Qed.
Lemma pack_app a b : pack_digits (a ++ b) = pack_digits a ++ pack_digits b.
Proof. induction a as [|[lo hi] a IH]; cbn; congruence. Qed.
Lemma pack_val ds : Forall (fun p => digit (fst p) /\ digit (snd p)) ds ->
  bcdval (pack_digits ds) = dec (flat ds) /\ bytes (pack_digits ds).
Proof.
  induction 1 as [|[lo hi] ds [H1 H2] _ [IH1 IH2]]; [split; [reflexivity|constructor]|].
  cbn [fst snd] in *. unfold digit in *. cbn [pack_digits bcdval fold_right flat flat_map app dec fst snd].
  fold (bcdval (pack_digits ds)) (flat ds) (dec (flat ds)). rewrite IH1.
  split; [|apply bytes_cons; split; [unfold is_byte; lia|assumption]].
  unfold bcd2. replace ((lo + 16 * hi) / 16) with hi by lia.
  replace ((lo + 16 * hi) mod 16) with lo by lia. destruct (Z.ltb_spec hi 10); lia.
Qed.

Lemma dec_app a b : dec (a ++ b) = dec a + 10 ^ Z.of_nat (length a) * dec b.
Proof.
  induction a as [|x a IH]; [cbn [app length]; change (10 ^ Z.of_nat 0) with 1; cbn [dec fold_right]; lia|].
  cbn [app dec fold_right length]. fold (dec a) (dec (a ++ b)).
  rewrite IH, Nat2Z.inj_succ, Z.pow_succ_r by lia. lia.
Qed.
Lemma flat_length ds : length (flat ds) = (2 * length ds)%nat.
Proof. unfold flat. induction ds as [|p ds IH]; cbn [flat_map length app]; [reflexivity|]. rewrite IH. lia. Qed.

Lemma bcd_decode_digits ds rest : Forall (fun p => digit (fst p) /\ digit (snd p)) ds ->
  (1 <= length ds <= 9)%nat -> bytes rest ->
  mbus_data_bcd_decode (pack_digits ds ++ rest) (length ds) = Ok (dec (flat ds)).
Proof.
  intros Hd Hl Hr. destruct (pack_val ds Hd) as [E B].
  rewrite bcd_decode_gen; [|apply bytes_app; auto|lia|rewrite app_length, pack_length; lia].
  rewrite firstn_app_exact by (symmetry; apply pack_length). rewrite E.
  rewrite app_nth1 by (rewrite pack_length; lia).
  assert (X : nth (length ds - 1) (pack_digits ds) 0 / 16 <= 9).
  { destruct (exists_last (l := ds)) as (ds' & [lo hi] & ->); [destruct ds; [cbn in Hl; lia|discriminate]|].
    apply Forall_app in Hd. destruct Hd as [_ Hd]. inversion Hd as [|x y [D1 D2] _]; subst. cbn in D1, D2.
    unfold digit in *. rewrite pack_app, app_length. cbn [length pack_digits].
    rewrite app_nth2 by (rewrite pack_length; lia). rewrite pack_length.
    replace (length ds' + 1 - 1 - length ds')%nat with 0%nat by lia. cbn [nth]. lia. }
  destruct (Z.eqb_spec (nth (length ds - 1) (pack_digits ds) 0 / 16) 15); [lia|reflexivity].
Qed.

Lemma bcd_decode_negative ds lo rest : Forall (fun p => digit (fst p) /\ digit (snd p)) ds -> digit lo ->
  (length ds <= 8)%nat -> bytes rest ->
  mbus_data_bcd_decode (pack_digits (ds ++ [(lo, 15)]) ++ rest) (length ds + 1)
  = Ok (- dec (flat ds ++ [lo])).
Proof.
  intros Hd Hlo Hl Hr. destruct (pack_val ds Hd) as [E B]. unfold digit in Hlo.
  assert (Bt : bytes (pack_digits (ds ++ [(lo, 15)]))).
  { rewrite pack_app. apply bytes_app. split; [assumption|]. cbn [pack_digits]. apply bytes_cons.
    split; [unfold is_byte; lia|constructor]. }
  assert (Ll : length (pack_digits (ds ++ [(lo, 15)])) = (length ds + 1)%nat).
  { rewrite pack_length, app_length. reflexivity. }
  rewrite bcd_decode_gen; [|apply bytes_app; auto|lia|rewrite app_length, Ll; lia].
  rewrite firstn_app_exact by (symmetry; exact Ll).
  rewrite app_nth1 by lia. rewrite pack_app. cbn [pack_digits].
  rewrite app_nth2 by (rewrite pack_length; lia). rewrite pack_length.
  replace (length ds + 1 - 1 - length ds)%nat with 0%nat by lia. cbn [nth].
  destruct (Z.eqb_spec ((lo + 16 * 15) / 16) 15); [|lia].
  rewrite bcdval_snoc, E, dec_app, flat_length, pack_length. f_equal. f_equal.
  unfold bcd2. replace ((lo + 16 * 15) / 16) with 15 by lia. change (15 <? 10) with false. cbv iota.
  replace ((lo + 16 * 15) mod 16) with lo by lia. cbn [dec fold_right].
  replace (10 ^ Z.of_nat (2 * length ds)) with (100 ^ Z.of_nat (length ds)).
  { lia. }
  rewrite Nat2Z.inj_mul. change (Z.of_nat 2) with 2. rewrite Z.pow_mul_r by lia. reflexivity.
Qed.

Lemma bcd_decode_total d n : bytes d -> (1 <= n <= 9)%nat -> (n <= length d)%nat ->
  exists v, mbus_data_bcd_decode d n = Ok v /\ Z.abs v < 2 * 100 ^ Z.of_nat n.
Proof.
  intros Hb Hn Hl. rewrite bcd_decode_gen by assumption. eexists. split; [reflexivity|].
  pose proof (bcdval_bound (firstn n d) (bytes_firstn n d Hb)) as B. rewrite firstn_length in B.
  replace (Nat.min n (length d)) with n in B by lia. destruct (_ =? 15); lia.
Qed.

Lemma bcd_hex_loop_ok i : forall d v, bytes d -> (i <= length d)%nat -> 0 <= v ->
  (v + 1) * 256 ^ Z.of_nat i <= LLONG_MAX + 1 ->
  bcd_hex_loop i d v = Ok (v * 256 ^ Z.of_nat i + le (firstn i d)).
Proof.
  induction i as [|i IH]; intros d v Hb Hl Hv HM.
  - cbn [bcd_hex_loop firstn le fold_right Z.of_nat]. rewrite Z.pow_0_r. f_equal. lia.
  - cbn [bcd_hex_loop]. rewrite rd_ok by lia. cbn [bind]. unfold shl8.
    destruct (Z.ltb_spec v 0); [lia|].
    rewrite Nat2Z.inj_succ, Z.pow_succ_r in * by lia.
    assert (Hp : 1 <= 256 ^ Z.of_nat i) by (apply (Z.pow_le_mono_r 256 0); lia).
    rewrite firstn_snoc, le_snoc, firstn_length by lia.
    replace (Nat.min i (length d)) with i by lia.
    set (p := 256 ^ Z.of_nat i) in *.
    assert (Hbd := bytes_nth d i Hb ltac:(lia)). set (b := nth i d 0) in *. unfold is_byte in Hbd.
    rewrite llong_op_ok by (unfold LLONG_MIN, LLONG_MAX in *; nia). cbn [bind].
    rewrite Z.lor_comm. change 256 with (2 ^ 8) at 1. rewrite lor_disjoint by lia. change (2 ^ 8) with 256.
    rewrite IH; auto; try lia; [|fold p; nia].
    fold p. f_equal. lia.
Qed.
Lemma bcd_hex_spec d n : bytes d -> (n <= 7)%nat -> (n <= length d)%nat ->
  mbus_data_bcd_decode_hex d n = Ok (le (firstn n d)).
Proof.
  intros Hb Hn Hl. unfold mbus_data_bcd_decode_hex. assert (256 ^ Z.of_nat n <= 256 ^ 7) by (apply Z.pow_le_mono_r; lia).
  rewrite bcd_hex_loop_ok; [reflexivity|assumption|assumption|lia|unfold LLONG_MAX; lia].
Qed.

(** ** BCD encoding *)
Fixpoint bcd_le (n : nat) (x : Z) : list Z :=
  match n with O => [] | S n' => (x mod 10 + 16 * ((x / 10) mod 10)) :: bcd_le n' (x / 100) end.
Lemma bcd_le_length n : forall x, length (bcd_le n x) = n.
Proof. induction n; intros; cbn; auto. Qed.
Lemma bcd_le_ok n : forall x, 0 <= x -> bytes (bcd_le n x) /\ bcdval (bcd_le n x) = x mod 100 ^ Z.of_nat n.
Proof.
  induction n as [|n IH]; intros x Hx.
  - cbn. split; [constructor|]. rewrite Z.mod_1_r. reflexivity.
  - cbn [bcd_le]. destruct (IH (x / 100)) as [B E]; [lia|]. split.
    + apply bytes_cons. split; [unfold is_byte; lia|assumption].
    + cbn [bcdval fold_right]. fold (bcdval (bcd_le n (x / 100))). rewrite E.
      rewrite Nat2Z.inj_succ, Z.pow_succ_r by lia.
      assert (0 < 100 ^ Z.of_nat n) by (apply Z.pow_pos_nonneg; lia).
      rewrite (Z.rem_mul_r x 100 (100 ^ Z.of_nat n)) by lia.
      f_equal. unfold bcd2. set (q := 100 ^ Z.of_nat n) in *. clearbody q. clear E.
      replace ((x mod 10 + 16 * ((x / 10) mod 10)) / 16) with ((x / 10) mod 10) by lia.
      replace ((x mod 10 + 16 * ((x / 10) mod 10)) mod 16) with (x mod 10) by lia.
      destruct (Z.ltb_spec ((x / 10) mod 10) 10); lia.
Qed.

Lemma bcd_encode_loop_ok n : forall i d v size, (i + n = size)%nat -> (size <= length d)%nat -> 0 <= v ->
  exists d', bcd_encode_loop n i d size v = Ok d' /\ length d' = length d /\
    firstn n d' = rev (bcd_le n v) /\ skipn n d' = skipn n d.
Proof.
  induction n as [|n IH]; intros i d v size Hi Hl Hv.
  - exists d. cbn. auto.
  - cbn [bcd_encode_loop]. rewrite wr_ok by lia. cbn [bind].
    set (x := u8 _).
    assert (Ex : x = v mod 10 + 16 * ((v / 10) mod 10)).
    { unfold x, u8. rewrite shiftl_mul by lia. change (2 ^ 4) with 16.
      rewrite !Z.quot_div_nonneg by lia.
      rewrite Z.lor_comm. change 16 with (2 ^ 4) at 1. rewrite lor_disjoint by lia. change (2 ^ 4) with 16. lia. }
    assert (Ev : Z.quot (Z.quot v 10) 10 = v / 100) by (rewrite !Z.quot_div_nonneg by lia; lia).
    rewrite Ev. clearbody x.
    destruct (IH (S i) (upd d (size - 1 - i) x) (v / 100) size) as (d' & H1 & H2 & H3 & H4);
      [lia|rewrite upd_length; lia|lia|].
    rewrite upd_length in H2. exists d'. split; [exact H1|]. split; [exact H2|].
    replace (size - 1 - i)%nat with n in H4 by lia. rewrite upd_splice in H4 by lia.
    assert (Ln : length (firstn n d) = n) by (rewrite firstn_length; lia).
    rewrite skipn_app_exact in H4 by (symmetry; exact Ln).
    cbn [bcd_le rev]. rewrite <- Ex, <- H3.
    assert (Es : firstn (S n) d' = firstn n d' ++ [x] /\ skipn (S n) d' = skipn (S n) d).
    { rewrite <- (firstn_skipn n d'). rewrite H4.
      assert (Ln' : length (firstn n d') = n) by (rewrite firstn_length; lia).
      split.
      - replace (firstn n d' ++ x :: skipn (S n) d) with ((firstn n d' ++ [x]) ++ skipn (S n) d)
          by (rewrite <- app_assoc; reflexivity).
        rewrite firstn_app_exact by (rewrite app_length, Ln'; cbn; lia).
        rewrite <- app_assoc. rewrite firstn_app_exact by (symmetry; exact Ln'). reflexivity.
      - replace (firstn n d' ++ x :: skipn (S n) d) with ((firstn n d' ++ [x]) ++ skipn (S n) d)
          by (rewrite <- app_assoc; reflexivity).
        rewrite skipn_app_exact by (rewrite app_length, Ln'; cbn; lia). reflexivity. }
    exact Es.
Qed.

Lemma bcd_encode_nonneg d n v : (1 <= n <= length d)%nat -> 0 <= v <= INT_MAX ->
  exists d', mbus_data_bcd_encode d n v = Ok (0, d') /\ length d' = length d /\
    firstn n d' = rev (bcd_le n v) /\ skipn n d' = skipn n d.
Proof.
  intros Hn Hv. unfold mbus_data_bcd_encode. destruct (Nat.eqb_spec n 0); [lia|].
  rewrite Z.abs_eq by lia. rewrite int_op_ok by (unfold INT_MIN; lia). cbn [bind].
  destruct (bcd_encode_loop_ok n 0 d v n) as (d' & H1 & H2 & H3 & H4); try lia.
  rewrite H1. cbn [bind]. destruct (Z.ltb_spec v 0); [lia|]. exists d'. auto.
Qed.

Lemma bcd_encode_big_endian d n v : (1 <= n <= 9)%nat -> (n <= length d)%nat -> 0 <= v <= INT_MAX ->
  v < 100 ^ Z.of_nat n ->
  exists d', mbus_data_bcd_encode d n v = Ok (0, d') /\
    mbus_data_bcd_decode (rev (firstn n d')) n = Ok v.
Proof.
  intros Hn Hl Hv Hfit. destruct (bcd_encode_nonneg d n v) as (d' & H1 & H2 & H3 & H4); auto; try lia.
  exists d'. split; [exact H1|]. rewrite H3, rev_involutive.
  destruct (bcd_le_ok n v) as [B E]; [lia|].
  rewrite bcd_decode_gen; [|assumption|lia|rewrite bcd_le_length; lia].
  rewrite firstn_all2 by (rewrite bcd_le_length; lia). rewrite E, Z.mod_small by lia.
  assert (X : forall k x, 0 <= x -> (k < n)%nat -> nth k (bcd_le n x) 0 / 16 <= 9).
  { clear. induction n as [|n IH]; intros k x Hx Hk; [lia|]. cbn [bcd_le]. destruct k; cbn [nth]; [lia|].
    apply IH; lia. }
  specialize (X (n - 1)%nat v ltac:(lia) ltac:(lia)).
  destruct (Z.eqb_spec (nth (n - 1) (bcd_le n v) 0 / 16) 15); [lia|reflexivity].
Qed.

Lemma bcd_roundtrip_one d v : (1 <= length d)%nat -> -9 <= v <= 99 ->
  exists d', mbus_data_bcd_encode d 1 v = Ok (0, d') /\ mbus_data_bcd_decode d' 1 = Ok v.
Proof.
  intros Hl Hv. destruct d as [|x r]; [cbn in Hl; lia|].
  unfold mbus_data_bcd_encode. change (1 =? 0)%nat with false. cbv iota.
  rewrite int_op_ok by (unfold INT_MIN, INT_MAX; lia). cbn [bind bcd_encode_loop Nat.sub wr upd length Nat.ltb Nat.leb].
  set (w := u8 _).
  assert (Ew : w = Z.abs v mod 10 + 16 * ((Z.abs v / 10) mod 10)).
  { unfold w, u8. rewrite shiftl_mul by lia. change (2 ^ 4) with 16. rewrite !Z.quot_div_nonneg by lia.
    rewrite Z.lor_comm. change 16 with (2 ^ 4) at 1. rewrite lor_disjoint by lia. change (2 ^ 4) with 16. lia. }
  unfold wr. cbn [length Nat.ltb Nat.leb upd bind].
  assert (Hw : is_byte w) by (rewrite Ew; unfold is_byte; lia).
  assert (D : forall b r v', is_byte b -> v' = (if b / 16 =? 15 then - bcd2 b else bcd2 b) ->
    mbus_data_bcd_decode (b :: r) 1 = Ok v').
  { clear. intros b r v' Hb ->. unfold mbus_data_bcd_decode. cbn [bcd_decode_loop]. unfold rd. cbn [nth_error bind].
    change (0 * 10) with 0. rewrite (llong_op_ok 0) by (unfold LLONG_MIN, LLONG_MAX; lia). cbn [bind].
    rewrite shiftr_div by lia. change (2 ^ 4) with 16. rewrite !land_0F. unfold bcd2. unfold is_byte in Hb.
    destruct (Z.ltb_spec (b / 16) 10).
    - rewrite (llong_op_ok (0 + (b / 16) mod 16)) by (unfold LLONG_MIN, LLONG_MAX; lia). cbn [bind].
      rewrite llong_op_ok by (unfold LLONG_MIN, LLONG_MAX; lia). cbn [bind].
      rewrite llong_op_ok by (unfold LLONG_MIN, LLONG_MAX; lia). cbn [bind].
      destruct (Z.eqb_spec (b / 16) 15); [lia|]. f_equal. lia.
    - cbn [bind]. rewrite llong_op_ok by (unfold LLONG_MIN, LLONG_MAX; lia). cbn [bind].
      rewrite llong_op_ok by (unfold LLONG_MIN, LLONG_MAX; lia). cbn [bind].
      destruct (Z.eqb_spec (b / 16) 15); [|f_equal; lia].
      rewrite llong_op_ok by (unfold LLONG_MIN, LLONG_MAX; lia). f_equal. lia. }
  destruct (Z.ltb_spec v 0).
  - unfold rd. cbn [nth_error bind]. rewrite lor_F0 by assumption.
    eexists. split; [reflexivity|]. apply D.
    + unfold is_byte. lia.
    + unfold bcd2. replace ((240 + w mod 16) / 16) with 15 by lia. change (15 =? 15) with true.
      change (15 <? 10) with false. cbv iota. replace ((240 + w mod 16) mod 16) with (w mod 16) by lia. lia.
  - eexists. split; [reflexivity|]. apply D; [assumption|]. unfold bcd2.
    replace (w / 16) with ((Z.abs v / 10) mod 10) by lia. replace (w mod 16) with (Z.abs v mod 10) by lia.
    destruct (Z.eqb_spec ((Z.abs v / 10) mod 10) 15), (Z.ltb_spec ((Z.abs v / 10) mod 10) 10); lia.
Qed.

(** ** Manufacturer codes *)
Lemma int_encode_2 x y r v : 0 <= v ->
  mbus_data_int_encode (x :: y :: r) 2 v = Ok (v mod 256 :: (v / 256) mod 256 :: r).
Proof.
  intros Hv. unfold mbus_data_int_encode. cbn [int_encode_loop Nat.leb]. unfold wr. cbn [length Nat.ltb Nat.leb upd bind].
  rewrite !land_FF, !shiftr_div by lia. change (2 ^ (Z.of_nat 0 * 8)) with 1. change (2 ^ (Z.of_nat 1 * 8)) with 256.
  rewrite Z.div_1_r. reflexivity.
Qed.

Lemma decode_manufacturer_spec b1 b2 : is_byte b1 -> is_byte b2 ->
  let u := b1 + 256 * b2 in
  mbus_decode_manufacturer b1 b2 = Ok [(u / 1024) mod 32 + 64; (u / 32) mod 32 + 64; u mod 32 + 64; 0].
Proof.
  intros H1 H2. cbv zeta. unfold mbus_decode_manufacturer. assert (Hb : bytes [b1; b2; 0; 0]) by (unfold bytes, is_byte in *; repeat constructor; lia).
  rewrite int_decode_spec; [|exact Hb|lia|cbn; lia].
  cbn [bind firstn le fold_right]. unfold twos. change (2 ^ (8 * Z.of_nat 2 - 1)) with 32768.
  change (2 ^ (8 * Z.of_nat 2)) with 65536. unfold is_byte in *.
  rewrite !land_1F, !shiftr_div by lia. change (2 ^ 10) with 1024. change (2 ^ 5) with 32.
  destruct (Z.ltb_spec (b1 + 256 * (b2 + 256 * 0)) 32768);
    apply f_equal; repeat (apply f_equal2; [lia|]); reflexivity.
Qed.

Lemma manufacturer_encode_letters x y r a b c t : letter a -> letter b -> letter c ->
  mbus_data_manufacturer_encode (x :: y :: r) (a :: b :: c :: t)
  = Ok (0, flag_id a b c mod 256 :: flag_id a b c / 256 :: r).
Proof.
  unfold letter, flag_id. intros Ha Hb Hc. unfold mbus_data_manufacturer_encode. unfold rd. cbn [nth_error bind].
  rewrite !land_1F, !shiftl_mul by lia. change (2 ^ 10) with 1024. change (2 ^ 5) with 32.
  rewrite int_encode_2 by lia. cbn [bind]. apply f_equal, f_equal. repeat (apply f_equal2; [lia|]). reflexivity.
Qed.

Lemma manufacturer_id_letters a b c ca cb cc t : letter a -> letter b -> letter c ->
  same_letter ca a -> same_letter cb b -> same_letter cc c ->
  mbus_manufacturer_id (ca :: cb :: cc :: t) = flag_id a b c.
Proof.
  unfold letter, same_letter, flag_id. intros Ha Hb Hc Sa Sb Sc.
  assert (T : forall c u, 65 <= u <= 90 -> c = u \/ c = u + 32 -> c_isalpha c = true /\ c_toupper c = u).
  { clear. intros c u Hu Hc. unfold c_isalpha, c_toupper, c_isupper, c_islower.
    destruct Hc as [-> | ->]; repeat match goal with |- context[?p <=? ?q] => destruct (Z.leb_spec p q) end; cbn; split; try reflexivity; lia. }
  destruct (T ca a Ha Sa) as [A1 A2]. destruct (T cb b Hb Sb) as [B1 B2]. destruct (T cc c Hc Sc) as [C1 C2].
  unfold mbus_manufacturer_id. rewrite A1, B1, C1, A2, B2, C2. cbn [negb orb].
  destruct (Z.leb_spec 0x421 ((a - 64) * 32 * 32 + (b - 64) * 32 + (c - 64))); [|lia].
  destruct (Z.leb_spec ((a - 64) * 32 * 32 + (b - 64) * 32 + (c - 64)) 0x6b5a); [|lia]. cbn [andb]. lia.
Qed.

Lemma manufacturer_id_rejects s : mbus_manufacturer_id s <> 0 ->
  exists a b c ca cb cc t, s = ca :: cb :: cc :: t /\ letter a /\ letter b /\ letter c /\
    same_letter ca a /\ same_letter cb b /\ same_letter cc c.
Proof.
  intros H. destruct s as [|ca [|cb [|cc t]]]; try (cbn in H; congruence).
  assert (T : forall c, c_isalpha c = true -> exists u, letter u /\ same_letter c u).
  { clear. intros c. unfold c_isalpha, c_isupper, c_islower, letter, same_letter.
    destruct (Z.leb_spec 65 c), (Z.leb_spec c 90), (Z.leb_spec 97 c), (Z.leb_spec c 122); cbn; intros; try discriminate;
      try (exists c; lia); exists (c - 32); lia. }
  unfold mbus_manufacturer_id in H.
  destruct (c_isalpha ca) eqn:A; [|cbn in H; congruence].
  destruct (c_isalpha cb) eqn:B; [|cbn in H; congruence].
  destruct (c_isalpha cc) eqn:C; [|cbn in H; congruence].
  destruct (T ca A) as (a & ? & ?). destruct (T cb B) as (b & ? & ?). destruct (T cc C) as (c & ? & ?).
  exists a, b, c, ca, cb, cc, t. auto 8.
Qed.

(** ** Dates *)
Ltac tm_rw := rewrite ?land_3F, ?land_1F, ?(land_0F), ?land_80, ?land_40, ?land_60, ?land_E0, ?land_F0 by assumption.

Lemma tm_g day month year rest : 0 <= day <= 31 -> 0 <= month <= 15 -> 0 <= year <= 127 ->
  mbus_data_tm_decode (type_g day month year ++ rest) 2
  = Ok (mkTm 0 0 0 day (month - 1) (100 + year) 0).
Proof.
  intros Hd Hm Hy. unfold mbus_data_tm_decode, type_g. cbn [Nat.eqb app]. unfold rd. cbn [nth_error bind].
  assert (B0 : is_byte (day + 32 * (year mod 8))) by (unfold is_byte; lia).
  assert (B1 : is_byte (month + 16 * (year / 8))) by (unfold is_byte; lia).
  tm_rw. rewrite lor8 by lia. f_equal. f_equal; lia.
Qed.

Lemma tm_f minute hour day month year hy su r0 rest :
  0 <= minute <= 63 -> 0 <= hour <= 31 -> 0 <= day <= 31 -> 0 <= month <= 15 -> 0 <= year <= 127 ->
  0 <= hy <= 3 -> 0 <= su <= 1 -> 0 <= r0 <= 1 ->
  mbus_data_tm_decode (type_f minute hour day month year hy su 0 r0 ++ rest) 4
  = Ok (mkTm 0 minute hour day (month - 1)
          (if (hy =? 0) && (year <=? 80) then 100 + year else 100 * hy + year) su).
Proof.
  intros. unfold mbus_data_tm_decode, type_f. cbn [Nat.eqb app]. unfold rd. cbn [nth_error bind].
  set (b0 := minute + 64 * r0 + 128 * 0). set (b1 := hour + 32 * hy + 128 * su).
  set (b2 := day + 32 * (year mod 8)). set (b3 := month + 16 * (year / 8)).
  assert (B0 : is_byte b0) by (unfold is_byte, b0; lia).
  assert (B1 : is_byte b1) by (unfold is_byte, b1; lia).
  assert (B2 : is_byte b2) by (unfold is_byte, b2; lia).
  assert (B3 : is_byte b3) by (unfold is_byte, b3; lia).
  rewrite !land_80 by assumption. destruct (Z.ltb_spec b0 128); [|unfold b0 in *; lia].
  change (0 =? 0) with true. cbv iota. tm_rw. rewrite lor8 by (unfold b2, is_byte in *; lia).
  replace (b2 / 32 + 8 * (b3 / 16)) with year by (unfold b2, b3; lia).
  replace ((b1 / 32) mod 4) with hy by (unfold b1; lia).
  f_equal. f_equal.
  - unfold b0; lia.
  - unfold b1; lia.
  - unfold b2; lia.
  - unfold b3; lia.
  - destruct ((hy =? 0) && (year <=? 80)); lia.
  - unfold b1. destruct (Z.ltb_spec (hour + 32 * hy + 128 * su) 128); [change (0 =? 0) with true|change (128 =? 0) with false]; cbv iota; lia.
Qed.

Lemma tm_i sec minute hour day month year dst lp r wd b5 rest :
  0 <= sec <= 63 -> 0 <= minute <= 63 -> 0 <= hour <= 31 -> 0 <= day <= 31 -> 0 <= month <= 15 ->
  0 <= year <= 127 -> 0 <= dst <= 1 -> 0 <= lp <= 1 -> 0 <= r <= 1 -> 0 <= wd <= 7 ->
  mbus_data_tm_decode (type_i sec minute hour day month year dst lp r 0 wd b5 ++ rest) 6
  = Ok (mkTm sec minute hour day (month - 1) (100 + year) dst).
Proof.
  intros. unfold mbus_data_tm_decode, type_i. cbn [Nat.eqb app]. unfold rd. cbn [nth_error bind].
  set (b0 := sec + 64 * dst + 128 * lp). set (b1 := minute + 64 * r + 128 * 0). set (b2 := hour + 32 * wd).
  set (b3 := day + 32 * (year mod 8)). set (b4 := month + 16 * (year / 8)).
  assert (B0 : is_byte b0) by (unfold is_byte, b0; lia).
  assert (B1 : is_byte b1) by (unfold is_byte, b1; lia).
  assert (B2 : is_byte b2) by (unfold is_byte, b2; lia).
  assert (B3 : is_byte b3) by (unfold is_byte, b3; lia).
  assert (B4 : is_byte b4) by (unfold is_byte, b4; lia).
  rewrite !land_80 by assumption. destruct (Z.ltb_spec b1 128); [|unfold b1 in *; lia].
  change (0 =? 0) with true. cbv iota. tm_rw. rewrite lor8 by (unfold b3, is_byte in *; lia).
  f_equal. f_equal.
  - unfold b0; lia.
  - unfold b1; lia.
  - unfold b2; lia.
  - unfold b3; lia.
  - unfold b4; lia.
  - unfold b3, b4; lia.
  - replace ((b0 / 64) mod 2) with dst by (unfold b0; lia).
    destruct (Z.eqb_spec (64 * dst) 0); lia.
Qed.

Lemma tm_invalid_f minute hour day month year hy su r0 rest :
  0 <= minute <= 63 -> 0 <= r0 <= 1 ->
  mbus_data_tm_decode (type_f minute hour day month year hy su 1 r0 ++ rest) 4 = Ok tm_zero.
Proof.
  intros. unfold mbus_data_tm_decode, type_f. cbn [Nat.eqb app]. unfold rd. cbn [nth_error bind].
  rewrite land_80 by (unfold is_byte; lia). destruct (Z.ltb_spec (minute + 64 * r0 + 128 * 1) 128); [lia|]. reflexivity.
Qed.
Lemma tm_invalid_i sec minute hour day month year dst lp r wd b5 rest :
  0 <= minute <= 63 -> 0 <= r <= 1 ->
  mbus_data_tm_decode (type_i sec minute hour day month year dst lp r 1 wd b5 ++ rest) 6 = Ok tm_zero.
Proof.
  intros. unfold mbus_data_tm_decode, type_i. cbn [Nat.eqb app]. unfold rd. cbn [nth_error bind].
  rewrite land_80 by (unfold is_byte; lia). destruct (Z.ltb_spec (minute + 64 * r + 128 * 1) 128); [lia|]. reflexivity.
Qed.

Definition tm_in_range (t : tm) : Prop :=
  0 <= tm_sec t <= 63 /\ 0 <= tm_min t <= 63 /\ 0 <= tm_hour t <= 31 /\ 0 <= tm_mday t <= 31 /\
  -1 <= tm_mon t <= 14 /\ 0 <= tm_year t <= 427 /\ 0 <= tm_isdst t <= 1.

Lemma tm_total d n : bytes d -> (n <= length d)%nat ->
  exists t, mbus_data_tm_decode d n = Ok t /\ tm_in_range t /\ (~ In n [2; 4; 6]%nat -> t = tm_zero).
Proof.
  intros Hb Hl. unfold mbus_data_tm_decode.
  assert (Z0 : tm_in_range tm_zero) by (unfold tm_in_range, tm_zero; cbn; lia).
  assert (B : forall i, (i < length d)%nat -> is_byte (nth i d 0)) by (intros; apply bytes_nth; auto).
  destruct (Nat.eqb_spec n 6); [|destruct (Nat.eqb_spec n 4); [|destruct (Nat.eqb_spec n 2)]].
  - subst n. pose proof (B 0%nat ltac:(lia)) as B0. pose proof (B 1%nat ltac:(lia)) as B1.
    pose proof (B 2%nat ltac:(lia)) as B2. pose proof (B 3%nat ltac:(lia)) as B3. pose proof (B 4%nat ltac:(lia)) as B4.
    rewrite (rd_ok d 1) by lia. cbn [bind].
    destruct (_ =? 0).
    2:{ eexists. split; [reflexivity|]. split; [assumption|]. auto. }
    rewrite (rd_ok d 0), (rd_ok d 2), (rd_ok d 3), (rd_ok d 4) by lia. cbn [bind].
    eexists. split; [reflexivity|]. split; [|cbn; tauto].
    unfold tm_in_range. cbn [tm_sec tm_min tm_hour tm_mday tm_mon tm_year tm_isdst].
    tm_rw. unfold is_byte in *. rewrite lor8 by lia.
    destruct (64 * ((nth 0 d 0 / 64) mod 2) =? 0); lia.
  - subst n. pose proof (B 0%nat ltac:(lia)) as B0. pose proof (B 1%nat ltac:(lia)) as B1.
    pose proof (B 2%nat ltac:(lia)) as B2. pose proof (B 3%nat ltac:(lia)) as B3.
    rewrite (rd_ok d 0) by lia. cbn [bind].
    destruct (_ =? 0).
    2:{ eexists. split; [reflexivity|]. split; [assumption|]. auto. }
    rewrite (rd_ok d 1), (rd_ok d 2), (rd_ok d 3) by lia. cbn [bind].
    eexists. split; [reflexivity|]. split; [|cbn; tauto].
    unfold tm_in_range. cbn [tm_sec tm_min tm_hour tm_mday tm_mon tm_year tm_isdst].
    rewrite land_60, land_E0, land_F0, land_3F, !land_1F, land_0F by assumption. unfold is_byte in *. rewrite lor8 by lia.
    destruct (_ && _); destruct (Z.land (nth 1 d 0) 128 =? 0); lia.
  - subst n. pose proof (B 0%nat ltac:(lia)) as B0. pose proof (B 1%nat ltac:(lia)) as B1.
    rewrite (rd_ok d 1), (rd_ok d 0) by lia. cbn [bind].
    eexists. split; [reflexivity|]. split; [|cbn; tauto].
    unfold tm_in_range. cbn [tm_sec tm_min tm_hour tm_mday tm_mon tm_year tm_isdst].
    tm_rw. unfold is_byte in *. rewrite lor8 by lia. lia.
  - eexists. split; [reflexivity|]. split; [assumption|]. auto.
Qed.

(** ** Strings *)
Lemma str_loop_ok len : forall i dst src, (len <= length src)%nat -> (i + len <= length dst)%nat ->
  str_loop len i dst src = Ok (firstn i dst ++ rev (firstn len src) ++ skipn (i + len) dst).
Proof.
  induction len as [|len IH]; intros i dst src Hs Hd.
  - cbn [str_loop firstn rev app]. rewrite Nat.add_0_r, firstn_skipn. reflexivity.
  - cbn [str_loop]. rewrite rd_ok by lia. cbn [bind]. rewrite wr_ok by lia. cbn [bind].
    rewrite IH by (rewrite ?upd_length; lia). f_equal.
    rewrite (firstn_snoc src len) by lia. rewrite rev_app_distr. cbn [rev app].
    rewrite upd_splice by lia. set (b := nth len src 0).
    assert (Lf : length (firstn i dst) = i) by (rewrite firstn_length; lia).
    replace (firstn i dst ++ b :: skipn (S i) dst) with ((firstn i dst ++ [b]) ++ skipn (S i) dst)
      by (rewrite <- app_assoc; reflexivity).
    rewrite firstn_app_exact by (rewrite app_length, Lf; cbn; lia).
    rewrite <- !app_assoc. cbn [app]. do 3 f_equal.
    replace (S i + len)%nat with (len + S i)%nat by lia. rewrite <- skipn_add.
    replace (firstn i dst ++ b :: skipn (S i) dst) with ((firstn i dst ++ [b]) ++ skipn (S i) dst)
      by (rewrite <- app_assoc; reflexivity).
    rewrite skipn_app_exact by (rewrite app_length, Lf; cbn; lia).
    rewrite skipn_add. f_equal. lia.
Qed.

Lemma str_decode_spec dst src len : (len <= length src)%nat -> (len < length dst)%nat ->
  mbus_data_str_decode dst src len = Ok (rev (firstn len src) ++ 0 :: skipn (S len) dst).
Proof.
  intros Hs Hd. unfold mbus_data_str_decode. rewrite wr_ok by lia. cbn [bind].
  rewrite str_loop_ok by (rewrite ?upd_length; lia). cbn [firstn app plus].
  rewrite upd_splice by lia. rewrite skipn_app_exact by (rewrite firstn_length; lia). reflexivity.
Qed.
Lemma str_decode_bounds dst src len r : mbus_data_str_decode dst src len = Ok r ->
  (len <= length src)%nat /\ (len < length dst)%nat.
Proof.
  unfold mbus_data_str_decode. intros H. apply bind_Ok in H. destruct H as (d1 & H1 & H2).
  apply wr_inv in H1. destruct H1 as [H1 ->]. split; [|assumption].
  destruct len as [|len]; [lia|]. cbn [str_loop] in H2. apply bind_Ok in H2. destruct H2 as (b & H2 & _).
  apply rd_inv in H2. lia.
Qed.

(** ** Hex text *)
Lemma hex_upper_digit n : 0 <= n < 16 -> hex_upper n = hex_digit n.
Proof.
  intros H. unfold hex_digit. assert (E : exists k, (k < 16)%nat /\ n = Z.of_nat k) by (exists (Z.to_nat n); lia).
  destruct E as (k & Hk & ->). rewrite Nat2Z.id.
  do 16 (destruct k as [|k]; [reflexivity|]). lia.
Qed.
Definition hex_chunk (b : Z) : list Z := [hex_digit (b / 16); hex_digit (b mod 16); 32].
Lemma hex_chunks l : l <> [] -> flat_map hex_chunk l = hex_text l ++ [32].
Proof.
  induction l as [|b l IH]; [contradiction|]. intros _. cbn [flat_map]. destruct l as [|c l]; [reflexivity|].
  rewrite IH by discriminate. reflexivity.
Qed.

Lemma bin_loop_ok k : forall dst src pos M, bytes src -> (k <= length src)%nat -> (M <= length dst)%nat ->
  (pos <= length dst)%nat ->
  let m := Nat.min k ((M - 1 - pos) / 3) in
  exists dst', bin_loop k dst src pos M = Ok (dst', (pos + 3 * m)%nat) /\ length dst' = length dst /\
    firstn (pos + 3 * m) dst' = firstn pos dst ++ flat_map hex_chunk (firstn m (rev (firstn k src))) /\
    skipn (Nat.max pos M) dst' = skipn (Nat.max pos M) dst.
Proof.
  induction k as [|k IH]; intros dst src pos M Hb Hk HM Hp; cbv zeta.
  - exists dst. cbn [bin_loop Nat.min firstn rev flat_map]. rewrite Nat.mul_0_r, Nat.add_0_r, app_nil_r. auto.
  - cbn [bin_loop]. destruct (Nat.ltb_spec (pos + 3) M) as [Hlt|Hge].
    + rewrite rd_ok by lia. cbn [bind]. set (b := nth k src 0).
      assert (Bb : is_byte b) by (apply bytes_nth; [assumption|lia]).
      unfold put_hex. rewrite put_list_ok by (cbn [length]; lia). cbn [bind].
      rewrite shiftr_div, land_0F by lia. change (2 ^ 4) with 16.
      rewrite !hex_upper_digit by (unfold is_byte in Bb; lia).
      set (d1 := firstn pos dst ++ _).
      assert (Lp : length (firstn pos dst) = pos) by (rewrite firstn_length; lia).
      assert (Ld : length d1 = length dst).
      { unfold d1. rewrite !app_length, Lp, skipn_length. cbn [length]. lia. }
      destruct (IH d1 src (pos + 3)%nat M Hb) as (dst' & H1 & H2 & H3 & H4); try lia.
      set (m' := Nat.min k ((M - 1 - (pos + 3)) / 3)) in *.
      assert (Em : Nat.min (S k) ((M - 1 - pos) / 3) = S m').
      { unfold m'. replace (M - 1 - pos)%nat with ((M - 1 - (pos + 3)) + 1 * 3)%nat by lia.
        rewrite Nat.div_add by lia. lia. }
      rewrite Em. exists dst'.
      replace (pos + 3 * S m')%nat with (pos + 3 + 3 * m')%nat by lia.
      split; [exact H1|]. split; [lia|]. split.
      * rewrite H3. unfold d1.
        replace (firstn pos dst ++ [hex_digit (b / 16); hex_digit (b mod 16); 32; 0] ++
                 skipn (pos + length [hex_digit (b / 16); hex_digit (b mod 16); 32; 0]) dst)
          with ((firstn pos dst ++ hex_chunk b) ++ 0 :: skipn (pos + 4) dst)
          by (rewrite <- app_assoc; reflexivity).
        rewrite firstn_app_exact by (rewrite app_length, Lp; reflexivity).
        rewrite (firstn_snoc src k) by lia. rewrite rev_app_distr. cbn [rev app].
        rewrite firstn_cons. cbn [flat_map]. fold b. rewrite <- app_assoc. reflexivity.
      * replace (Nat.max (pos + 3) M) with M in H4 by lia. replace (Nat.max pos M) with M by lia.
        rewrite H4. unfold d1. rewrite app_assoc, skipn_app, skipn_all2 by (rewrite app_length, Lp; cbn [length]; lia).
        cbn [app]. rewrite app_length, Lp. cbn [length]. rewrite skipn_add. f_equal. lia.
    + exists dst. replace ((M - 1 - pos) / 3)%nat with 0%nat.
      2:{ symmetry. apply Nat.div_small. lia. }
      rewrite Nat.min_0_r, Nat.mul_0_r, Nat.add_0_r. cbn [firstn flat_map]. rewrite app_nil_r. auto.
Qed.

Lemma bin_decode_spec dst src len M : bytes src -> (len <= length src)%nat -> (1 <= M <= length dst)%nat ->
  let m := Nat.min len ((M - 1) / 3) in
  let text := hex_text (firstn m (rev (firstn len src))) in
  exists dst', mbus_data_bin_decode dst src len M = Ok dst' /\ length dst' = length dst /\
    firstn (length text + 1) dst' = text ++ [0] /\ (length text < M)%nat /\
    skipn M dst' = skipn M dst.
Proof.
  intros Hb Hl HM. cbv zeta. unfold mbus_data_bin_decode.
  destruct (bin_loop_ok len dst src 0 M Hb Hl) as (d1 & H1 & H2 & H3 & H4); try lia.
  rewrite H1. cbn [bind]. rewrite Nat.sub_0_r, Nat.add_0_l in *.
  set (m := Nat.min len ((M - 1) / 3)) in *. cbn [firstn app] in H3. cbn [Nat.max] in H4.
  assert (Hm : (3 * m <= M - 1)%nat).
  { pose proof (Nat.div_mod (M - 1) 3 ltac:(lia)). unfold m. lia. }
  set (l := firstn m (rev (firstn len src))) in *.
  assert (Ll : length l = m) by (unfold l; rewrite firstn_length, rev_length, firstn_length; lia).
  destruct m as [|m'].
  - assert (El : l = []) by (destruct l; [reflexivity|discriminate]). rewrite El in *. cbn [hex_text length plus app].
    change (0 <? 3 * 0)%nat with false. cbv iota.
    rewrite Nat.mul_0_r. rewrite wr_ok by lia. exists (upd d1 0 0). split; [reflexivity|].
    rewrite upd_length. split; [lia|]. rewrite upd_splice by lia. split; [reflexivity|]. split; [lia|].
    cbn [firstn app]. destruct M as [|M]; [lia|]. destruct d1 as [|x d1]; [cbn in H2; lia|]. exact H4.
  - destruct (Nat.ltb_spec 0 (3 * S m')); [|lia].
    assert (Hne : l <> []) by (intros X; rewrite X in Ll; discriminate).
    rewrite hex_chunks in H3 by assumption.
    assert (Lt : length (hex_text l) = (3 * S m' - 1)%nat).
    { apply (f_equal (@length Z)) in H3. rewrite app_length, firstn_length in H3. cbn [length] in H3. lia. }
    rewrite wr_ok by lia. eexists. split; [reflexivity|]. rewrite upd_length. split; [lia|].
    rewrite upd_splice by lia. rewrite Lt.
    assert (Ef : firstn (3 * S m' - 1) d1 = hex_text l).
    { rewrite <- (firstn_app_exact (hex_text l) [32] (3 * S m' - 1)) by lia.
      rewrite <- H3, firstn_firstn. f_equal. lia. }
    rewrite Ef. split; [|split; [lia|]].
    + replace (hex_text l ++ 0 :: skipn (S (3 * S m' - 1)) d1) with ((hex_text l ++ [0]) ++ skipn (S (3 * S m' - 1)) d1)
        by (rewrite <- app_assoc; reflexivity).
      apply firstn_app_exact. rewrite app_length, Lt. reflexivity.
    + replace (hex_text l ++ 0 :: skipn (S (3 * S m' - 1)) d1) with ((hex_text l ++ [0]) ++ skipn (S (3 * S m' - 1)) d1)
        by (rewrite <- app_assoc; reflexivity).
      rewrite skipn_app, skipn_all2 by (rewrite app_length, Lt; cbn [length]; lia). cbn [app].
      rewrite app_length, Lt. cbn [length]. rewrite skipn_add. rewrite <- H4. f_equal. lia.
Qed.

Lemma hex_digit_inj a b : 0 <= a < 16 -> 0 <= b < 16 -> hex_digit a = hex_digit b -> a = b.
Proof. intros Ha Hb E. rewrite <- !hex_upper_digit in E by assumption. unfold hex_upper in E.
  destruct (Z.ltb_spec a 10), (Z.ltb_spec b 10); lia. Qed.
Lemma hex_text_inj : forall l1 l2, bytes l1 -> bytes l2 -> hex_text l1 = hex_text l2 -> l1 = l2.
Proof.
  assert (D : forall b c, is_byte b -> is_byte c -> hex_digit (b / 16) = hex_digit (c / 16) ->
     hex_digit (b mod 16) = hex_digit (c mod 16) -> b = c).
  { intros b c Hb Hc E1 E2. unfold is_byte in *. apply hex_digit_inj in E1; [|lia|lia]. apply hex_digit_inj in E2; lia. }
  induction l1 as [|b l1 IH]; intros l2 B1 B2 E.
  - destruct l2 as [|c [|d l2]]; [reflexivity|discriminate|discriminate].
  - apply bytes_cons in B1. destruct B1 as [Bb B1].
    destruct l2 as [|c l2]; [destruct l1; discriminate|]. apply bytes_cons in B2. destruct B2 as [Bc B2].
    destruct l1 as [|b' l1], l2 as [|c' l2].
    + cbn in E. injection E as E1 E2. f_equal. apply D; auto.
    + cbn in E. discriminate.
    + cbn in E. discriminate.
    + change (hex_digit (b / 16) :: hex_digit (b mod 16) :: 32 :: hex_text (b' :: l1) =
              hex_digit (c / 16) :: hex_digit (c mod 16) :: 32 :: hex_text (c' :: l2)) in E.
      injection E as E1 E2 E3. f_equal; [apply D; auto|]. apply IH; assumption.
Qed.

(** ** Floats *)
Lemma float_bits_le d : (4 <= length d)%nat -> float_bits true d = Ok (le (firstn 4 d)).
Proof.
  intros H. destruct d as [|a [|b [|c [|e d]]]]; cbn [length] in H; try lia.
  unfold float_bits, rd. cbn [nth_error bind firstn le fold_right]. f_equal. lia.
Qed.

Lemma float_portable_spec d : bytes d -> (4 <= length d)%nat ->
  exists n e, float_portable d = Ok (n, e) /\
    match ieee_value (le (firstn 4 d)) with
    | Finite m x => (x = -149 /\ Z.abs m < 2 ^ 23 -> n = m /\ e = -150) /\
                    (2 ^ 23 <= Z.abs m -> n = m /\ e = x)
    | _ => True
    end.
Proof.
  intros Hb H. destruct d as [|b0 [|b1 [|b2 [|b3 d]]]]; cbn [length] in H; try lia.
  repeat (apply bytes_cons in Hb; destruct Hb as [? Hb]). unfold is_byte in *.
  unfold float_portable, rd. cbn [nth_error bind firstn le fold_right].
  set (t := ((b3 * 256 + b2) * 256 + b1) * 256 + b0).
  replace (b0 + 256 * (b1 + 256 * (b2 + 256 * (b3 + 256 * 0)))) with t by (unfold t; lia).
  assert (Ht : 0 <= t < 4294967296) by (unfold t; lia). clearbody t.
  eexists. eexists. split; [reflexivity|].
  rewrite Z.shiftr_land. change (Z.shiftr 0x7F800000 23) with 0xFF. rewrite land_FF, !shiftr_div by lia.
  change 0x7FFFFF with (Z.ones 23). rewrite land_mask by lia.
  unfold ieee_value. change (2 ^ 31) with 2147483648. change (2 ^ 23) with 8388608.
  set (E := (t / 8388608) mod 256). set (m := t mod 8388608). set (s := t / 2147483648).
  assert (HE : 0 <= E < 256) by (unfold E; lia). assert (Hm : 0 <= m < 8388608) by (unfold m; lia).
  assert (Hs : 0 <= s <= 1) by (unfold s; lia). clearbody E m s.
  assert (Lor : Z.lor m 0x800000 = m + 8388608).
  { change 0x800000 with (1 * 2 ^ 23). rewrite lor_disjoint by (change (2 ^ 23) with 8388608; lia). reflexivity. }
  destruct (Z.eqb_spec E 255) as [->|N255]; [destruct (m =? 0); exact I|].
  destruct (Z.eqb_spec E 0) as [->|N0].
  - change (negb (0 - 127 =? -127)) with false. cbn [andb].
    destruct (Z.eqb_spec s 0); split; intros; lia.
  - destruct (Z.eqb_spec (E - 127) (-127)); [lia|]. destruct (Z.eqb_spec (E - 127) 128); [lia|]. cbn [negb andb].
    rewrite Lor. destruct (Z.eqb_spec s 0); split; intros; lia.
Qed.
