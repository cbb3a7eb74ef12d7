(** Proofs about normalised records. *)
From Coq Require Import Qpower.
From Coq Require Import String.
From Coq Require Import List.
From Verif Require Import CBase PBase CStr MFrame MCodec MVar MText MUnit SVar SText SCodec SXml SUnit PCodec PCodec2 PVar3 PXml PText PText2 PText3 PXml3 PropText SNorm PDouble.

Lemma zeros_bytes n : bytes (repeat 0 n).
Proof. apply Forall_forall. intros x H. apply repeat_spec in H. subst. unfold is_byte. lia. Qed.
(** ** Texts of fixed width are unique *)
Lemma digit_value_inj c c' d : d < 10 -> digit_value c = Some d -> digit_value c' = Some d -> c = c'.
Proof.
  intros H. unfold digit_value.
  repeat match goal with |- context [if ?b then _ else _] => destruct b eqn:? end; intros E E'; try discriminate; injection E as E; injection E' as E'; lia.
Qed.
Lemma digit_value_nonneg c d : digit_value c = Some d -> 0 <= d.
Proof.
  unfold digit_value. repeat match goal with |- context [if ?b then _ else _] => destruct b eqn:? end; intros E; try discriminate; injection E as E; lia.
Qed.
Lemma read_digits_range : forall l acc n, read_digits 10 l acc = Some n -> acc * 10 ^ Z.of_nat (length l) <= n < (acc + 1) * 10 ^ Z.of_nat (length l).
Proof.
  induction l as [|c l IH]; intros acc n E; [injection E as ->; cbn; lia|].
  cbn [read_digits] in E. destruct (digit_value c) as [d|] eqn:Ed; [|discriminate]. destruct (Z.ltb_spec d 10); [|discriminate].
  apply digit_value_nonneg in Ed. apply IH in E. change (length (c :: l)) with (S (length l)). rewrite Nat2Z.inj_succ, Z.pow_succ_r by lia.
  pose proof (Z.pow_pos_nonneg 10 (Z.of_nat (length l)) ltac:(lia) ltac:(lia)). nia.
Qed.
Lemma read_digits_inj : forall l l' acc n, length l = length l' -> read_digits 10 l acc = Some n -> read_digits 10 l' acc = Some n -> l = l'.
Proof.
  induction l as [|c l IH]; intros [|c' l'] acc n L E E'; try discriminate; [reflexivity|]. injection L as L.
  cbn [read_digits] in E, E'. destruct (digit_value c) as [d|] eqn:Ed; [|discriminate]. destruct (Z.ltb_spec d 10); [|discriminate].
  destruct (digit_value c') as [d'|] eqn:Ed'; [|discriminate]. destruct (Z.ltb_spec d' 10); [|discriminate].
  pose proof (read_digits_range _ _ _ E) as R. pose proof (read_digits_range _ _ _ E') as R'. rewrite <- L in R'.
  pose proof (Z.pow_pos_nonneg 10 (Z.of_nat (length l)) ltac:(lia) ltac:(lia)).
  assert (d = d') by (clear - R R' H1; nia). subst d'. rewrite (digit_value_inj c c' d) by assumption. f_equal. exact (IH l' _ n L E E').
Qed.
Lemma fixed_width_inj w n l l' : fixed_width w n l -> fixed_width w n l' -> l = l'.
Proof.
  intros [L R] [L' R']. unfold read_nat in *. destruct l as [|c l]; [discriminate|]. destruct l' as [|c' l']; [discriminate|].
  refine (read_digits_inj _ _ 0 n _ R R'). congruence.
Qed.
Lemma app_split {A} (a b a' b' : list A) : length a = length a' -> a ++ b = a' ++ b' -> a = a' /\ b = b'.
Proof.
  revert a'. induction a as [|x a IH]; intros [|x' a'] L E; try discriminate; [auto|]. injection L as L. injection E as -> E.
  destruct (IH a' L E) as [-> ->]. auto.
Qed.
Lemma iso_date_inj y m d t t' : iso_date y m d t -> iso_date y m d t' -> t = t'.
Proof.
  intros (a & b & c & -> & A & B & C) (a' & b' & c' & -> & A' & B' & C').
  rewrite (fixed_width_inj _ _ _ _ A A'), (fixed_width_inj _ _ _ _ B B'), (fixed_width_inj _ _ _ _ C C'). reflexivity.
Qed.
Lemma iso_datetime_inj y m d h mi s t t' : iso_datetime y m d h mi s t -> iso_datetime y m d h mi s t' -> t = t'.
Proof.
  intros (x & a & b & c & -> & X & A & B & C) (x' & a' & b' & c' & -> & X' & A' & B' & C').
  rewrite (iso_date_inj _ _ _ _ _ X X'), (fixed_width_inj _ _ _ _ A A'), (fixed_width_inj _ _ _ _ B B'), (fixed_width_inj _ _ _ _ C C'). reflexivity.
Qed.
Lemma iso_date_len y m d t : iso_date y m d t -> length t = 10%nat.
Proof. intros (a & b & c & -> & (A & _) & (B & _) & (C & _)). rewrite !app_length, A, B, C. reflexivity. Qed.
Lemma iso_datetime_len y m d h mi s t : iso_datetime y m d h mi s t -> length t = 19%nat.
Proof. intros (x & a & b & c & -> & X & (A & _) & (B & _) & (C & _)). rewrite !app_length, (iso_date_len _ _ _ _ X), A, B, C. reflexivity. Qed.

(** ** Reals *)
(** The same number; the sign of a not-a-number does not matter. *)
Definition alike (x y : real) : Prop :=
  match x, y with Num a, Num b => (a == b)%Q | NonFinite s n, NonFinite s' n' => n = n' /\ (n = false -> s = s') | _, _ => False end.
Lemma alike_refl x : alike x x.
Proof. destruct x; cbn; [reflexivity|auto]. Qed.
Lemma real_value bits x : 0 <= bits < 2 ^ 32 -> ieee_number (ieee_value bits) x -> alike (real_of_bits bits) x.
Proof.
  intros H. unfold real_of_bits, ieee_value. rewrite !Z.shiftr_div_pow2 by lia.
  change 0xFF with (Z.ones 8). change 0x7FFFFF with (Z.ones 23). rewrite !Z.land_ones by lia. change (2 ^ 8) with 256. change (Z.ones 8) with 255.
  set (s := bits / 2 ^ 31). set (e := (bits / 2 ^ 23) mod 256). set (m := bits mod 2 ^ 23).
  destruct (Z.eqb_spec e 255) as [E|N].
  - destruct (Z.eqb_spec m 0) as [M|M]; destruct x; cbn [ieee_number negb alike]; try contradiction; [intros [-> ->]; auto|intros ->; split; [reflexivity|discriminate]].
  - assert (He : 0 <= e < 256) by (apply Z.mod_pos_bound; lia).
    assert (X : forall sig ex, -149 <= ex <= 104 -> (if ex <? 0 then sig # Z.to_pos (2 ^ (- ex)) else inject_Z (sig * 2 ^ ex)) == inject_Z sig * Qpower 2 ex).
    { intros sig ex Hx.
      assert (PW : forall n, 0 <= n -> (Qpower 2 n == inject_Z (2 ^ n))%Q) by (intros n Hn; exact (Qeq_sym _ _ (Zpower_Qpower 2 n Hn))).
      destruct (Z.ltb_spec ex 0) as [L|G].
      - replace ex with (- (- ex)) at 2 by lia. rewrite Qpower_opp, PW by lia. assert (P0 : 0 < 2 ^ (- ex)) by (apply Z.pow_pos_nonneg; lia).
        destruct (2 ^ (- ex)) as [|p|p]; try lia. unfold Qeq, Qmult, Qinv, inject_Z. cbn [Qnum Qden Z.to_pos]. lia.
      - rewrite PW by lia. rewrite inject_Z_mult. reflexivity. }
    destruct (Z.eqb_spec e 0) as [E0|N0]; destruct x; cbn [ieee_number alike]; try contradiction.
    + intros ->. rewrite X by lia. destruct (s =? 0); [replace (m * 1) with m by lia|replace (m * -1) with (- m) by lia]; reflexivity.
    + intros ->. rewrite X by lia.
      destruct (s =? 0); [replace ((m + 2 ^ 23) * 1) with (2 ^ 23 + m) by lia|replace ((m + 2 ^ 23) * -1) with (- (2 ^ 23 + m)) by lia]; reflexivity.
Qed.

Lemma alike_near n x y : alike x y -> near n y x.
Proof.
  destruct x, y; cbn; try contradiction.
  - intros E. apply (within_eq _ q); [assumption|]. apply within_refl. discriminate.
  - intros [-> H]. split; [reflexivity|]. intros K. symmetry. auto.
Qed.

(** ** Decoded values *)
Lemma value_unfold r : parsed_rec r ->
  mbus_variable_value_decode r =
  (let k := r_dif r mod 16 in
   let int (n : nat) := let* (ret, v) := mbus_data_int_decode (r_data r) n in Ok (mkDec ret (real_of v) None 0) in
   let llong (n : nat) := let* (ret, v) := mbus_data_long_long_decode (r_data r) n in Ok (mkDec ret (real_of v) None 0) in
   let bcd (n : nat) := let* v := mbus_data_bcd_decode (r_data r) n in Ok (dec_num (real_of v)) in
   let date := let* t := mbus_data_tm_decode (r_data r) 2 in
              let s := fmt_date t in dec_text 11 (Z.of_nat (List.length s)) (fun b => put_list b 0 (cut 11 s ++ [0])) in
   let datetime (n : nat) := let* t := mbus_data_tm_decode (r_data r) n in
              let s := fmt_datetime t ++ [90] in dec_text 21 (Z.of_nat (List.length s)) (fun b => put_list b 0 (cut 21 s ++ [0])) in
   if k =? 0x00 then dec_text 1 0 (fun b => wr b 0 0)
   else if k =? 0x01 then int 1%nat
   else if k =? 0x02 then if vif_date (r_vif r) then date else int 2%nat
   else if k =? 0x03 then int 3%nat
   else if k =? 0x04 then if vif_datetime (r_vif r) (vife0 r) then datetime 4%nat else int 4%nat
   else if k =? 0x05 then let* b := float_bits true (r_data r) in Ok (dec_num (real_of_bits b))
   else if k =? 0x06 then if vif_datetime (r_vif r) (vife0 r) then datetime 6%nat else llong 6%nat
   else if k =? 0x07 then llong 8%nat
   else if k =? 0x09 then bcd 1%nat
   else if k =? 0x0A then bcd 2%nat
   else if k =? 0x0B then bcd 3%nat
   else if k =? 0x0C then bcd 4%nat
   else if k =? 0x0D then
     let* d0 := rd (r_data r) 0 in
     if (r_len r =? 0)%nat then UB
     else
     let n := (r_len r - 1)%nat in
     if d0 <=? 0xBF then dec_text (r_len r) (Z.of_nat n) (fun b => mbus_data_str_decode b (skipn 1 (r_data r)) n)
     else dec_text (3 * n + 1) (Z.of_nat (3 * n)) (fun b => mbus_data_bin_decode b (skipn 1 (r_data r)) n (3 * n + 1))
   else if k =? 0x0E then bcd 6%nat
   else if k =? 0x0F then
     dec_text (3 * r_len r + 1) (Z.of_nat (3 * r_len r)) (fun b => mbus_data_bin_decode b (r_data r) (r_len r) (3 * r_len r + 1))
   else Ok (mkDec (-2) (Num 0) None 0)).
Proof.
  intros ((B1 & B2 & B3 & B4 & B5 & B6 & B7 & B8) & D & V & E & _).
  unfold mbus_variable_value_decode, vif_date, vif_datetime. rewrite (rd_ok (r_vife r) 0) by lia. cbn [bind].
  fold (vife0 r). assert (Hv : is_byte (vife0 r)) by (apply bytes_nth; [assumption|lia]).
  cbv zeta. rewrite !land_7F, PText3.land_0F by assumption. rewrite <- !orb_assoc, <- !andb_orb_distrib_r. reflexivity.
Qed.

Lemma text_number n size (s : list Z) : c_chars s -> (length s < n)%nat ->
  dec_text n size (fun b => put_list b 0 (cut n s ++ [0])) = Ok (mkDec 0 (Num 0) (Some s) size).
Proof.
  intros C L. unfold dec_text, cut. rewrite firstn_all2 by lia. rewrite put_list_ok by (rewrite app_length, repeat_length; cbn [length]; lia).
  cbn [bind firstn app]. rewrite <- app_assoc. cbn [app]. rewrite c_text_exact by assumption. reflexivity.
Qed.
Lemma text_reversed n size (src : list Z) : c_chars (rev (firstn n src)) -> (n <= length src)%nat ->
  dec_text (S n) size (fun b => mbus_data_str_decode b src n) = Ok (mkDec 0 (Num 0) (Some (rev (firstn n src))) size).
Proof.
  intros C L. unfold dec_text. rewrite str_decode_spec by (rewrite ?repeat_length; lia). cbn [bind]. rewrite c_text_exact by assumption. reflexivity.
Qed.
Lemma text_hex n size (src : list Z) : bytes src -> (n <= length src)%nat ->
  dec_text (3 * n + 1) size (fun b => mbus_data_bin_decode b src n (3 * n + 1)) = Ok (mkDec 0 (Num 0) (Some (hex_text (rev (firstn n src)))) size).
Proof.
  intros Hb L. unfold dec_text. destruct (bin_decode_spec (repeat 0 (3 * n + 1)) src n (3 * n + 1) Hb L) as (b & E & Lb & F & _); [rewrite repeat_length; lia|].
  rewrite E. cbn [bind]. replace (Nat.min n ((3 * n + 1 - 1) / 3)) with n in F.
  2:{ replace (3 * n + 1 - 1)%nat with (n * 3)%nat by lia. rewrite Nat.div_mul by lia. lia. }
  rewrite (firstn_all2 (rev (firstn n src))) in F by (rewrite rev_length, firstn_length; lia).
  rewrite <- (firstn_skipn (length (hex_text (rev (firstn n src))) + 1) b), F, <- app_assoc. cbn [app].
  rewrite c_text_exact; [reflexivity|]. apply plain_chars, hex_text_plain, Forall_rev, bytes_firstn. assumption.
Qed.
Lemma hex_text_length : forall l, (length (hex_text l) + 1 = 3 * length l)%nat \/ l = [].
Proof.
  induction l as [|b l IH]; [auto|]. left. destruct l as [|b2 l]; [reflexivity|].
  change (hex_text (b :: b2 :: l)) with (hex_digit (b / 16) :: hex_digit (b mod 16) :: 32 :: hex_text (b2 :: l)).
  destruct IH as [IH|IH]; [|discriminate]. cbn [length] in *. lia.
Qed.

(** The size reported for a text: its length; one more for hexadecimal digits. *)
Definition sized (a : arec) (t : list Z) (size : Z) : Prop :=
  size = Z.of_nat (length t) \/ ((a_dif a mod 16 = 13 \/ a_dif a mod 16 = 15) /\ size = Z.of_nat (length t) + 1).
Lemma sized_hex a l : a_dif a mod 16 = 13 \/ a_dif a mod 16 = 15 -> sized a (hex_text (rev l)) (Z.of_nat (3 * length l)).
Proof.
  intros H. unfold sized. destruct (hex_text_length (rev l)) as [E|E].
  - right. rewrite rev_length in E. split; [assumption|lia].
  - left. rewrite E. destruct l; [reflexivity|]. cbn [rev] in E. destruct (rev l); discriminate.
Qed.

Definition shows (a : arec) (d : decoded) (c : content) : Prop :=
  e_ret d = 0 /\ match c with Number x => e_str d = None /\ near 4 x (e_real d) | Text t => e_str d = Some t /\ sized a t (e_size d) end.

Ltac size_is a H n := assert (SZ : dif_size (a_dif a) = n) by (unfold dif_size; rewrite H; reflexivity); rewrite SZ in *.
Lemma value_content a c : wf_rec a -> means a c -> exists d, mbus_variable_value_decode (obj a) = Ok d /\ shows a d c.
Proof.
  intros W M. assert (P := obj_parsed a W). rewrite value_unfold by assumption. cbv zeta.
  change (r_dif (obj a)) with (a_dif a). change (r_vif (obj a)) with (a_vif a). rewrite obj_vife0.
  pose proof (read_data (obj a)) as L. assert (Hb : bytes (r_data (obj a))) by apply P.
  assert (Hl : length (r_data (obj a)) = 234%nat) by apply P.
  assert (NUM : forall ret x y, ret = 0 -> near 4 y x -> exists d, Ok (mkDec ret x None 0) = Ok d /\ shows a d (Number y)).
  { intros ret x y -> H. eexists. split; [reflexivity|]. split; [reflexivity|]. split; [reflexivity|exact H]. }
  assert (TXT : forall t size, sized a t size -> exists d, Ok (mkDec 0 (Num 0) (Some t) size) = Ok d /\ shows a d (Text t)).
  { intros t size H. eexists. split; [reflexivity|]. split; [reflexivity|]. split; [reflexivity|exact H]. }
  destruct M as [K|K|ds K V D|ds lo K V D Hlo|x K Hx|day month year t K V E H1 H2 H3 T|minute hour day month year hy su r0 t K V E H1 H2 H3 H4 H5 H6 H7 H8 T
    |sec minute hour day month year dst lp r wd b5 t K V E H1 H2 H3 H4 H5 H6 H7 H8 H9 H10 T|b w K V Hbf Hc|b w K V Hbf|K].
  - rewrite K. cbn [Z.eqb Pos.eqb]. apply TXT. left. reflexivity.
  - assert (N : a_dif a mod 16 <> 13) by (unfold int_record in K; cbv zeta in K; lia). destruct (value_exact a W N) as [LE VE]. rewrite LE.
    unfold int_record in K. cbv zeta in K.
    destruct K as [H|[[H H1]|[H|[[H H1]|[[H H1]|H]]]]]; [size_is a H 1%nat|size_is a H 2%nat|size_is a H 3%nat|size_is a H 4%nat|size_is a H 6%nat|size_is a H 8%nat].
    all: rewrite H; cbn [Z.eqb Pos.eqb]; try rewrite H1.
    all: first [rewrite int_decode_spec by (try assumption; try (apply L; [assumption|]); lia)|rewrite long_long_decode_spec by (try assumption; try (apply L; [assumption|]); lia)].
    all: cbn [bind]; rewrite VE; apply NUM; [reflexivity|apply near_of].
  - assert (N : a_dif a mod 16 <> 13) by (cbn [In] in K; lia). destruct (value_exact a W N) as [LE _]. rewrite V, pack_length in LE.
    assert (E : r_data (obj a) = pack_digits ds ++ repeat 0 (234 - length (a_value a))) by (cbn [obj r_data]; unfold pad; rewrite V at 1; reflexivity).
    assert (R : forall n, length ds = n -> (1 <= n <= 9)%nat -> mbus_data_bcd_decode (r_data (obj a)) n = Ok (dec (flat ds))).
    { intros n <- Hn. rewrite E. apply bcd_decode_digits; [assumption|assumption|apply zeros_bytes]. }
    cbn [In] in K. destruct K as [K|[K|[K|[K|[K|[]]]]]]; symmetry in K; [size_is a K 1%nat|size_is a K 2%nat|size_is a K 3%nat|size_is a K 4%nat|size_is a K 6%nat].
    all: rewrite K; cbn [Z.eqb Pos.eqb].
    all: rewrite (R _ LE) by lia; cbn [bind]; apply NUM; [reflexivity|apply near_of].
  - assert (N : a_dif a mod 16 <> 13) by (cbn [In] in K; lia). destruct (value_exact a W N) as [LE _]. rewrite V, pack_length, app_length in LE. cbn [length] in LE.
    assert (E : r_data (obj a) = pack_digits (ds ++ [(lo, 15)]) ++ repeat 0 (234 - length (a_value a))) by (cbn [obj r_data]; unfold pad; rewrite V at 1; reflexivity).
    assert (R : forall n, (length ds + 1)%nat = n -> (1 <= n <= 9)%nat -> mbus_data_bcd_decode (r_data (obj a)) n = Ok (- dec (flat ds ++ [lo]))).
    { intros n <- Hn. rewrite E. apply bcd_decode_negative; [assumption|assumption|lia|apply zeros_bytes]. }
    cbn [In] in K. destruct K as [K|[K|[K|[K|[K|[]]]]]]; symmetry in K; [size_is a K 1%nat|size_is a K 2%nat|size_is a K 3%nat|size_is a K 4%nat|size_is a K 6%nat].
    all: rewrite K; cbn [Z.eqb Pos.eqb].
    all: rewrite (R _ LE) by lia; cbn [bind]; apply NUM; [reflexivity|apply near_of].
  - destruct (value_exact a W ltac:(lia)) as [LE VE]. unfold dif_size in VE. rewrite K in VE. change (nth (Z.to_nat 5) _ 0%nat) with 4%nat in VE.
    rewrite K. cbn [Z.eqb Pos.eqb]. rewrite float_bits_le by (apply L; [assumption|lia]). rewrite VE. cbn [bind]. apply NUM; [reflexivity|].
    apply alike_near. apply real_value; [|assumption]. rewrite <- VE. apply (le_firstn_range (r_data (obj a)) 4 Hb). lia.
  - rewrite K, V. cbn [Z.eqb Pos.eqb]. destruct (tm_total (r_data (obj a)) 2) as (tm & Et & R & _); [assumption|lia|]. rewrite Et. cbn [bind].
    cbn [obj r_data] in Et. unfold pad in Et. rewrite E, tm_g in Et by assumption. apply ok_inj in Et.
    apply in_range_small in R. destruct (date_short _ R) as [[Pl _] _]. pose proof (iso_date_fmt _ R) as I. rewrite <- Et in I at 1 2 3. cbn [tm_year tm_mon tm_mday] in I.
    replace (100 + year + 1900) with (2000 + year) in I by lia. replace (month - 1 + 1) with month in I by lia.
    rewrite (iso_date_inj _ _ _ _ _ I T) in *. pose proof (iso_date_len _ _ _ _ T) as Lt. rewrite text_number; [|apply plain_chars; assumption|lia]. apply TXT. left. reflexivity.
  - rewrite K, V. cbn [Z.eqb Pos.eqb]. destruct (tm_total (r_data (obj a)) 4) as (tm & Et & R & _); [assumption|lia|]. rewrite Et. cbn [bind].
    cbn [obj r_data] in Et. unfold pad in Et. rewrite E, tm_f in Et by assumption. apply ok_inj in Et.
    apply in_range_small in R. destruct (datetime_short _ R) as [Pl _]. pose proof (iso_datetime_fmt _ R) as I. rewrite <- Et in I at 1 2 3 4 5 6. cbn [tm_year tm_mon tm_mday tm_hour tm_min tm_sec] in I.
    replace (month - 1 + 1) with month in I by lia.
    match type of I with iso_datetime ?y _ _ _ _ _ _ => replace y with ((if (hy =? 0) && (year <=? 80) then 2000 else 1900 + 100 * hy) + year) in I by (destruct ((hy =? 0) && (year <=? 80)) eqn:?; lia) end.
    rewrite (iso_datetime_inj _ _ _ _ _ _ _ _ I T) in *. pose proof (iso_datetime_len _ _ _ _ _ _ _ T) as Lt.
    rewrite text_number; [|apply plain_chars, Forall_app; split; [assumption|repeat constructor; unfold plain; lia]|rewrite app_length; cbn [length]; lia]. apply TXT. left. reflexivity.
  - rewrite K, V. cbn [Z.eqb Pos.eqb]. destruct (tm_total (r_data (obj a)) 6) as (tm & Et & R & _); [assumption|lia|]. rewrite Et. cbn [bind].
    cbn [obj r_data] in Et. unfold pad in Et. rewrite E, tm_i in Et by assumption. apply ok_inj in Et.
    apply in_range_small in R. destruct (datetime_short _ R) as [Pl _]. pose proof (iso_datetime_fmt _ R) as I. rewrite <- Et in I at 1 2 3 4 5 6. cbn [tm_year tm_mon tm_mday tm_hour tm_min tm_sec] in I.
    replace (month - 1 + 1) with month in I by lia. replace (100 + year + 1900) with (2000 + year) in I by lia.
    rewrite (iso_datetime_inj _ _ _ _ _ _ _ _ I T) in *. pose proof (iso_datetime_len _ _ _ _ _ _ _ T) as Lt.
    rewrite text_number; [|apply plain_chars, Forall_app; split; [assumption|repeat constructor; unfold plain; lia]|rewrite app_length; cbn [length]; lia]. apply TXT. left. reflexivity.
  - assert (F : firstn (length w) (skipn 1 (r_data (obj a))) = w) by (cbn [obj r_data]; rewrite V; unfold pad; cbn [app skipn]; apply firstn_app_exact; reflexivity).
    assert (Hw : (S (length w) <= 192)%nat). { replace (S (length w)) with (r_len (obj a)) by (cbn [obj r_len]; rewrite V; reflexivity). apply P. rewrite PText3.land_0F by apply P. exact K. }
    rewrite K. cbn [Z.eqb Pos.eqb]. rewrite rd_ok by lia. cbn [bind]. change (r_len (obj a)) with (length (a_value a)). rewrite V. cbn [length Nat.eqb].
    replace (nth 0 (r_data (obj a)) 0) with b by (cbn [obj r_data]; rewrite V; reflexivity). destruct (Z.leb_spec b 0xBF); [|lia].
    replace (S (length w) - 1)%nat with (length w) by lia. rewrite text_reversed; [|rewrite F; apply Forall_rev; assumption|rewrite skipn_length; lia].
    rewrite F. apply TXT. left. rewrite rev_length. reflexivity.
  - assert (F : firstn (length w) (skipn 1 (r_data (obj a))) = w) by (cbn [obj r_data]; rewrite V; unfold pad; cbn [app skipn]; apply firstn_app_exact; reflexivity).
    assert (Hw : (S (length w) <= 192)%nat). { replace (S (length w)) with (r_len (obj a)) by (cbn [obj r_len]; rewrite V; reflexivity). apply P. rewrite PText3.land_0F by apply P. exact K. }
    rewrite K. cbn [Z.eqb Pos.eqb]. rewrite rd_ok by lia. cbn [bind]. change (r_len (obj a)) with (length (a_value a)). rewrite V. cbn [length Nat.eqb].
    replace (nth 0 (r_data (obj a)) 0) with b by (cbn [obj r_data]; rewrite V; reflexivity). destruct (Z.leb_spec b 0xBF); [lia|].
    replace (S (length w) - 1)%nat with (length w) by lia. rewrite text_hex; [|apply bytes_skipn; assumption|rewrite skipn_length; lia].
    rewrite F. apply TXT. apply sized_hex. auto.
  - rewrite K. cbn [Z.eqb Pos.eqb]. change (r_len (obj a)) with (length (a_value a)).
    assert (LE : (length (a_value a) <= 234)%nat) by (change (length (a_value a)) with (r_len (obj a)); apply P).
    rewrite text_hex by (try assumption; lia).
    assert (F : firstn (length (a_value a)) (r_data (obj a)) = a_value a) by (cbn [obj r_data]; unfold pad; apply firstn_app_exact; reflexivity).
    rewrite F. apply TXT. apply sized_hex. auto.
Qed.
