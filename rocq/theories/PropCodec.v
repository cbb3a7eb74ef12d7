(** Property theorems C14-C21, C53 (value codecs). Vocabulary: SCodec.v. *)
From Verif Require Import CBase PBase MCodec SCodec PCodec PCodec2.

(** C14: little-endian two's complement; no signed overflow for the sizes the types can hold. *)
Theorem C14_int_decode :
  forall d n, bytes d -> (1 <= n <= 4)%nat -> (n <= length d)%nat ->
  mbus_data_int_decode d n = Ok (0, twos n (le (firstn n d))).
Proof. exact int_decode_spec. Qed.
Theorem C14_long_decode :
  forall d n, bytes d -> (1 <= n <= 8)%nat -> (n <= length d)%nat ->
  mbus_data_long_decode d n = Ok (0, twos n (le (firstn n d))) /\
  mbus_data_long_long_decode d n = Ok (0, twos n (le (firstn n d))).
Proof. intros d n H1 H2 H3. split; exact (long_long_decode_spec d n H1 H2 H3). Qed.
Theorem C14_size_zero :
  forall d, mbus_data_int_decode d 0 = Ok (-1, 0) /\ mbus_data_long_decode d 0 = Ok (-1, 0) /\
            mbus_data_long_long_decode d 0 = Ok (-1, 0).
Proof. intros d. repeat split. Qed.
Print Assumptions C14_int_decode.
Print Assumptions C14_long_decode.
Example C14_nonvacuous :
  mbus_data_int_decode [0xFE; 0xFF; 0x80] 2 = Ok (0, -2) /\ mbus_data_int_decode [0; 0; 0; 0x80] 4 = Ok (0, -2147483648) /\
  mbus_data_long_long_decode [0; 0; 0; 0; 0; 0; 0; 0x80] 8 = Ok (0, -9223372036854775808).
Proof. repeat split; vm_compute; reflexivity. Qed.

(** C15: encoding then decoding reduces to the signed range; values that fit come back. *)
Theorem C15_int_encode_decode :
  forall d n v, (1 <= n <= 4)%nat -> (n <= length d)%nat ->
  exists d', mbus_data_int_encode d n v = Ok d' /\ length d' = length d /\ skipn n d' = skipn n d /\
    mbus_data_int_decode d' n = Ok (0, wrap_signed n v) /\
    (- 2 ^ (8 * Z.of_nat n - 1) <= v < 2 ^ (8 * Z.of_nat n - 1) -> mbus_data_int_decode d' n = Ok (0, v)).
Proof.
  intros d n v Hn Hl. destruct (encode_decode d n v Hn Hl) as (d' & H1 & H2).
  destruct (int_encode_spec d n v Hl ltac:(lia)) as (d2 & E & E2 & E3 & _).
  rewrite H1 in E. apply ok_inj in E. subst d2.
  exists d'. split; [exact H1|]. split; [exact E2|]. split; [exact E3|]. split; [exact H2|].
  intros Hv. rewrite H2, wrap_signed_id by (assumption || lia). reflexivity.
Qed.
Print Assumptions C15_int_encode_decode.
Example C15_nonvacuous :
  mbus_data_int_encode [9; 9; 9] 2 (-300) = Ok [0xD4; 0xFE; 9] /\ mbus_data_int_decode [0xD4; 0xFE; 9] 2 = Ok (0, -300).
Proof. split; vm_compute; reflexivity. Qed.

(** C16: decimal digits, least significant first, two per byte. *)
Theorem C16_bcd_decode_digits :
  forall ds rest, Forall (fun p => digit (fst p) /\ digit (snd p)) ds -> (1 <= length ds <= 9)%nat -> bytes rest ->
  mbus_data_bcd_decode (pack_digits ds ++ rest) (length ds) = Ok (dec (flat ds)).
Proof. exact bcd_decode_digits. Qed.
Theorem C16_bcd_decode_negative :
  forall ds lo rest, Forall (fun p => digit (fst p) /\ digit (snd p)) ds -> digit lo -> (length ds <= 8)%nat -> bytes rest ->
  mbus_data_bcd_decode (pack_digits (ds ++ [(lo, 15)]) ++ rest) (length ds + 1) = Ok (- dec (flat ds ++ [lo])).
Proof. exact bcd_decode_negative. Qed.
(** No overflow and no out-of-bounds access on arbitrary bytes (all sizes up to 9 bytes). *)
Theorem C16_bcd_decode_safe :
  forall d n, bytes d -> (1 <= n <= 9)%nat -> (n <= length d)%nat ->
  exists v, mbus_data_bcd_decode d n = Ok v /\ Z.abs v < 2 * 100 ^ Z.of_nat n.
Proof. exact bcd_decode_total. Qed.
Theorem C16_bcd_decode_hex :
  forall d n, bytes d -> (n <= 7)%nat -> (n <= length d)%nat ->
  mbus_data_bcd_decode_hex d n = Ok (le (firstn n d)).
Proof. exact bcd_hex_spec. Qed.
Print Assumptions C16_bcd_decode_digits.
Print Assumptions C16_bcd_decode_negative.
Print Assumptions C16_bcd_decode_safe.
Print Assumptions C16_bcd_decode_hex.
Example C16_nonvacuous :
  mbus_data_bcd_decode [0x78; 0x56; 0x34; 0x12] 4 = Ok 12345678 /\ mbus_data_bcd_decode [0x45; 0xF3] 2 = Ok (-345) /\
  pack_digits [(8, 7); (6, 5)] = [0x78; 0x56].
Proof. repeat split; vm_compute; reflexivity. Qed.

(** C17, the part that holds: one byte. *)
Theorem C17_bcd_roundtrip_one_byte_partial :
  forall d v, (1 <= length d)%nat -> -9 <= v <= 99 ->
  exists d', mbus_data_bcd_encode d 1 v = Ok (0, d') /\ mbus_data_bcd_decode d' 1 = Ok v.
Proof. exact bcd_roundtrip_one. Qed.
(** C17: with more than one byte the encoder writes the digits in the opposite byte order: decoding
    its output reversed gives a non-negative value back. *)
Theorem C17_bcd_roundtrip_reversed_partial :
  forall d n v, (1 <= n <= 9)%nat -> (n <= length d)%nat -> 0 <= v <= INT_MAX -> v < 100 ^ Z.of_nat n ->
  exists d', mbus_data_bcd_encode d n v = Ok (0, d') /\ mbus_data_bcd_decode (rev (firstn n d')) n = Ok v.
Proof. exact bcd_encode_big_endian. Qed.
(** C17 as stated is false of the code (finding). *)
Theorem C17_bcd_roundtrip_refuted :
  ~ (forall d n v, (1 <= n <= 9)%nat -> (n <= length d)%nat -> Z.abs v < 10 ^ (2 * Z.of_nat n - 1) -> Z.abs v <= INT_MAX ->
     exists d', mbus_data_bcd_encode d n v = Ok (0, d') /\ mbus_data_bcd_decode d' n = Ok v).
Proof.
  intros H. destruct (H [0; 0] 2%nat 12) as (d' & H1 & H2); [lia|cbn; lia|cbn; lia|unfold INT_MAX; cbn; lia|].
  vm_compute in H1. injection H1 as <-. vm_compute in H2. discriminate.
Qed.
Print Assumptions C17_bcd_roundtrip_one_byte_partial.
Print Assumptions C17_bcd_roundtrip_reversed_partial.
Print Assumptions C17_bcd_roundtrip_refuted.
Example C17_nonvacuous : mbus_data_bcd_encode [0; 0] 2 1234 = Ok (0, [0x12; 0x34]) /\ mbus_data_bcd_decode [0x34; 0x12] 2 = Ok 1234.
Proof. split; vm_compute; reflexivity. Qed.

(** C18: manufacturer codes. *)
Theorem C18_manufacturer_codes :
  forall a b c x y r t, letter a -> letter b -> letter c ->
  exists b1 b2,
    mbus_data_manufacturer_encode (x :: y :: r) (a :: b :: c :: t) = Ok (0, b1 :: b2 :: r) /\
    is_byte b1 /\ is_byte b2 /\ b1 + 256 * b2 = flag_id a b c /\
    mbus_decode_manufacturer b1 b2 = Ok [a; b; c; 0] /\
    forall ca cb cc, same_letter ca a -> same_letter cb b -> same_letter cc c ->
      mbus_manufacturer_id (ca :: cb :: cc :: t) = b1 + 256 * b2.
Proof.
  intros a b c x y r t Ha Hb Hc. exists (flag_id a b c mod 256), (flag_id a b c / 256).
  split; [apply manufacturer_encode_letters; assumption|].
  pose proof (manufacturer_id_letters a b c) as Id. unfold letter, flag_id in *.
  split; [unfold is_byte; lia|]. split; [unfold is_byte; lia|]. split; [lia|]. split.
  - rewrite decode_manufacturer_spec by (unfold is_byte; lia).
    apply f_equal. repeat (apply f_equal2; [lia|]). reflexivity.
  - intros ca cb cc S1 S2 S3. rewrite (Id ca cb cc t) by assumption. lia.
Qed.
Theorem C18_reencode :
  forall b1 b2 a b c x y r t, is_byte b1 -> is_byte b2 -> letter a -> letter b -> letter c ->
  b1 + 256 * b2 = flag_id a b c ->
  mbus_decode_manufacturer b1 b2 = Ok [a; b; c; 0] /\
  mbus_data_manufacturer_encode (x :: y :: r) (a :: b :: c :: t) = Ok (0, b1 :: b2 :: r).
Proof.
  intros b1 b2 a b c x y r t B1 B2 Ha Hb Hc E. rewrite manufacturer_encode_letters by assumption.
  rewrite decode_manufacturer_spec by assumption. unfold letter, flag_id, is_byte in *.
  split; [apply f_equal|apply f_equal, f_equal]; repeat (apply f_equal2; [lia|]); reflexivity.
Qed.
Theorem C18_id_only_letters :
  forall s, mbus_manufacturer_id s <> 0 ->
  exists a b c ca cb cc t, s = ca :: cb :: cc :: t /\ letter a /\ letter b /\ letter c /\
    same_letter ca a /\ same_letter cb b /\ same_letter cc c.
Proof. exact manufacturer_id_rejects. Qed.
Print Assumptions C18_manufacturer_codes.
Print Assumptions C18_reencode.
Print Assumptions C18_id_only_letters.
Example C18_nonvacuous :
  mbus_decode_manufacturer 0x65 0x32 = Ok [76; 83; 69; 0] /\ mbus_manufacturer_id [76; 83; 69] = 0x3265 /\
  mbus_manufacturer_id [108; 115; 101; 33] = 0x3265 /\ mbus_manufacturer_id [76; 49; 69] = 0.
Proof. repeat split; vm_compute; reflexivity. Qed.

(** C19: date/time types G, F, I. Type F: hundred-year 0 with a year up to 80 means 20xx (the
    library's rule for old meters). *)
Theorem C19_type_g :
  forall day month year rest, 0 <= day <= 31 -> 0 <= month <= 15 -> 0 <= year <= 127 ->
  mbus_data_tm_decode (type_g day month year ++ rest) 2 = Ok (mkTm 0 0 0 day (month - 1) (100 + year) 0).
Proof. exact tm_g. Qed.
Theorem C19_type_f :
  forall minute hour day month year hy su r0 rest,
  0 <= minute <= 63 -> 0 <= hour <= 31 -> 0 <= day <= 31 -> 0 <= month <= 15 -> 0 <= year <= 127 ->
  0 <= hy <= 3 -> 0 <= su <= 1 -> 0 <= r0 <= 1 ->
  mbus_data_tm_decode (type_f minute hour day month year hy su 0 r0 ++ rest) 4
  = Ok (mkTm 0 minute hour day (month - 1)
          (if (hy =? 0) && (year <=? 80) then 100 + year else 100 * hy + year) su).
Proof. exact tm_f. Qed.
Theorem C19_type_i :
  forall sec minute hour day month year dst lp r wd b5 rest,
  0 <= sec <= 63 -> 0 <= minute <= 63 -> 0 <= hour <= 31 -> 0 <= day <= 31 -> 0 <= month <= 15 ->
  0 <= year <= 127 -> 0 <= dst <= 1 -> 0 <= lp <= 1 -> 0 <= r <= 1 -> 0 <= wd <= 7 ->
  mbus_data_tm_decode (type_i sec minute hour day month year dst lp r 0 wd b5 ++ rest) 6
  = Ok (mkTm sec minute hour day (month - 1) (100 + year) dst).
Proof. exact tm_i. Qed.
Theorem C19_invalid_bit :
  (forall minute hour day month year hy su r0 rest, 0 <= minute <= 63 -> 0 <= r0 <= 1 ->
   mbus_data_tm_decode (type_f minute hour day month year hy su 1 r0 ++ rest) 4 = Ok (mkTm 0 0 0 0 0 0 0)) /\
  (forall sec minute hour day month year dst lp r wd b5 rest, 0 <= minute <= 63 -> 0 <= r <= 1 ->
   mbus_data_tm_decode (type_i sec minute hour day month year dst lp r 1 wd b5 ++ rest) 6 = Ok (mkTm 0 0 0 0 0 0 0)).
Proof. split; [exact tm_invalid_f|exact tm_invalid_i]. Qed.
(** For any bytes and any size: only the array is read and every field stays in its range. *)
Theorem C19_ranges :
  forall d n, bytes d -> (n <= length d)%nat ->
  exists t, mbus_data_tm_decode d n = Ok t /\
   (0 <= tm_sec t <= 63 /\ 0 <= tm_min t <= 63 /\ 0 <= tm_hour t <= 31 /\ 0 <= tm_mday t <= 31 /\
    -1 <= tm_mon t <= 14 /\ 0 <= tm_year t <= 427 /\ 0 <= tm_isdst t <= 1) /\
   (~ In n [2; 4; 6]%nat -> t = (mkTm 0 0 0 0 0 0 0)).
Proof. exact tm_total. Qed.
Print Assumptions C19_type_g.
Print Assumptions C19_type_f.
Print Assumptions C19_type_i.
Print Assumptions C19_invalid_bit.
Print Assumptions C19_ranges.
Example C19_nonvacuous : (* 2007-06-27, and 2010-10-31 23:59 summer time *)
  type_g 27 6 7 = [0xFB; 0x06] /\ mbus_data_tm_decode [0xFB; 0x06] 2 = Ok (mkTm 0 0 0 27 5 107 0) /\
  type_f 59 23 31 10 10 1 1 0 0 = [0x3B; 0xB7; 0x5F; 0x1A] /\
  mbus_data_tm_decode [0x3B; 0xB7; 0x5F; 0x1A] 4 = Ok (mkTm 0 59 23 31 9 110 1).
Proof. repeat split; vm_compute; reflexivity. Qed.

(** C20: reversed copy with terminator; needs and touches exactly len + 1 destination bytes. *)
Theorem C20_str_decode :
  forall dst src len, (len <= length src)%nat -> (len < length dst)%nat ->
  mbus_data_str_decode dst src len = Ok (rev (firstn len src) ++ 0 :: skipn (S len) dst).
Proof. exact str_decode_spec. Qed.
Theorem C20_str_decode_needs :
  forall dst src len r, mbus_data_str_decode dst src len = Ok r -> (len <= length src)%nat /\ (len < length dst)%nat.
Proof. exact str_decode_bounds. Qed.
Theorem C20_str_decode_involution :
  forall src d1 d2, (length src < length d1)%nat -> (length src < length d2)%nat ->
  exists r1 r2, mbus_data_str_decode d1 src (length src) = Ok r1 /\
    mbus_data_str_decode d2 r1 (length src) = Ok r2 /\ firstn (length src) r2 = src.
Proof.
  intros src d1 d2 H1 H2. rewrite str_decode_spec, firstn_all by lia. eexists. eexists. split; [reflexivity|].
  rewrite str_decode_spec by (rewrite ?app_length, ?rev_length; lia).
  split; [reflexivity|]. rewrite (firstn_app_exact (rev src)) by (rewrite rev_length; reflexivity).
  rewrite rev_involutive. apply firstn_app_exact. reflexivity.
Qed.
Print Assumptions C20_str_decode.
Print Assumptions C20_str_decode_needs.
Print Assumptions C20_str_decode_involution.
Example C20_nonvacuous : mbus_data_str_decode [9; 9; 9; 9; 9] [67; 66; 65] 3 = Ok [65; 66; 67; 0; 9].
Proof. vm_compute. reflexivity. Qed.

(** C21: the first m bytes of the reversed data are rendered, m limited by the buffer; nothing at or beyond
    max_len is touched; the text is terminated. *)
Theorem C21_bin_decode :
  forall dst src len max_len, bytes src -> (len <= length src)%nat -> (1 <= max_len <= length dst)%nat ->
  let m := Nat.min len ((max_len - 1) / 3) in
  let text := hex_text (firstn m (rev (firstn len src))) in
  exists dst', mbus_data_bin_decode dst src len max_len = Ok dst' /\ length dst' = length dst /\
    firstn (length text + 1) dst' = text ++ [0] /\ (length text < max_len)%nat /\
    skipn max_len dst' = skipn max_len dst.
Proof. exact bin_decode_spec. Qed.
Theorem C21_bin_decode_complete :
  forall dst src len max_len, bytes src -> (len <= length src)%nat -> (3 * len < max_len <= length dst)%nat ->
  exists dst', mbus_data_bin_decode dst src len max_len = Ok dst' /\
    firstn (length (hex_text (rev (firstn len src))) + 1) dst' = hex_text (rev (firstn len src)) ++ [0].
Proof.
  intros dst src len M Hb Hl HM. destruct (bin_decode_spec dst src len M Hb Hl ltac:(lia)) as (d & H1 & _ & H2 & _).
  exists d. split; [exact H1|].
  replace (Nat.min len ((M - 1) / 3)) with len in H2.
  2:{ pose proof (Nat.div_le_lower_bound (M - 1) 3 len). lia. }
  rewrite (firstn_all2 (rev (firstn len src))) in H2 by (rewrite rev_length, firstn_length; lia). exact H2.
Qed.
Theorem C21_text_injective :
  forall l1 l2, bytes l1 -> bytes l2 -> hex_text l1 = hex_text l2 -> l1 = l2.
Proof. exact hex_text_inj. Qed.
Print Assumptions C21_bin_decode.
Print Assumptions C21_bin_decode_complete.
Print Assumptions C21_text_injective.
Example C21_nonvacuous : (* "3F 0A" *)
  mbus_data_bin_decode (repeat 7 8) [0x0A; 0x3F] 2 8 = Ok [51; 70; 32; 48; 65; 0; 0; 7].
Proof. vm_compute. reflexivity. Qed.

(** C53, default build on a little-endian host: the 32 bits handed to the FPU are the little-endian value. *)
Theorem C53_float_bits_partial :
  forall d, (4 <= length d)%nat -> float_bits true d = Ok (le (firstn 4 d)).
Proof. exact float_bits_le. Qed.
(** C53 fails on a big-endian host (finding): 1.0 (00 00 80 3F) becomes the bits 00 00 80 3F, a denormal. *)
Theorem C53_float_big_endian_refuted :
  ieee_value (le [0x00; 0x00; 0x80; 0x3F]) = Finite (2 ^ 23) (-23) /\
  exists bits, float_bits false [0x00; 0x00; 0x80; 0x3F] = Ok bits /\ ieee_value bits = Finite 0x803F (-149).
Proof. split; [vm_compute; reflexivity|]. exists 0x803F. split; vm_compute; reflexivity. Qed.
(** C53, portable branch: normal numbers are exact. *)
Theorem C53_float_portable_normal_partial :
  forall d m e, bytes d -> (4 <= length d)%nat -> ieee_value (le (firstn 4 d)) = Finite m e -> 2 ^ 23 <= Z.abs m ->
  float_portable d = Ok (m, e).
Proof.
  intros d m e Hb Hl E Hm. destruct (float_portable_spec d Hb Hl) as (n & x & H & S). rewrite E in S.
  destruct S as [_ S]. destruct (S Hm) as [-> ->]. exact H.
Qed.
(** C53, portable branch: every subnormal number comes out at half its value (finding). *)
Theorem C53_float_portable_subnormal_refuted :
  forall d m, bytes d -> (4 <= length d)%nat -> ieee_value (le (firstn 4 d)) = Finite m (-149) -> Z.abs m < 2 ^ 23 ->
  float_portable d = Ok (m, -150).
Proof.
  intros d m Hb Hl E Hm. destruct (float_portable_spec d Hb Hl) as (n & x & H & S). rewrite E in S.
  destruct S as [S _]. destruct (S (conj eq_refl Hm)) as [-> ->]. exact H.
Qed.
Print Assumptions C53_float_bits_partial.
Print Assumptions C53_float_portable_normal_partial.
Print Assumptions C53_float_portable_subnormal_refuted.
Example C53_nonvacuous :
  float_portable [0x00; 0x00; 0x80; 0x3F] = Ok (2 ^ 23, -23) /\
  ieee_value (le [1; 0; 0; 0x80]) = Finite (-1) (-149) /\ float_portable [1; 0; 0; 0x80] = Ok (-1, -150).
Proof. repeat split; vm_compute; reflexivity. Qed.
