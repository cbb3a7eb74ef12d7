(** Property theorems C54 (value text of a record). Vocabulary: SText.v, SCodec.v, SVar.v. [obj a] is the record object the
    parser builds for the abstract record [a] (theorem C22_parse_encoded). *)
From Coq Require Import String.
From Coq Require Import List.
From Verif Require Import CBase PBase CStr MFrame MCodec MVar MText SText SCodec SVar SXml PCodec PCodec2 PVar3 PXml PText PText2 PText3.

Lemma value_exact a : wf_rec a -> a_dif a mod 16 <> 13 ->
  length (a_value a) = dif_size (a_dif a) /\ firstn (dif_size (a_dif a)) (r_data (obj a)) = a_value a.
Proof.
  intros W N. destruct W as (_ & _ & _ & _ & _ & _ & _ & _ & _ & V & _). unfold value_fits in V.
  destruct (Z.eqb_spec (a_dif a mod 16) 13); [lia|]. split; [assumption|]. rewrite <- V. cbn [obj r_data].
  unfold pad. apply firstn_app_exact. reflexivity.
Qed.
Lemma obj_vife0 a : vife0 (obj a) = nth 0 (a_vifes a) 0.
Proof. unfold vife0, obj, pad. cbn [r_vife]. destruct (a_vifes a); reflexivity. Qed.
Lemma decimal_fmt z : decimal z (fmt_d z).
Proof. split; [apply fmt_d_read|]. apply fmt_d_canonical. Qed.

(** C54: the text and its terminator always fit the 768-byte buffer, and nothing is read outside the record. *)
Theorem C54_fits_buffer :
  (forall a, wf_rec a -> exists t, mbus_data_record_decode (obj a) = Ok t /\ c_chars t /\ (length t + 1 <= 702)%nat) /\
  (forall more b, (length b <= 234)%nat -> bytes b ->
   exists t, mbus_data_record_decode (obj_block (tail_dif more) b) = Ok t /\ c_chars t /\ (length t + 1 <= 702)%nat).
Proof.
  split.
  - intros a W. destruct (decode_ok (obj a) (obj_parsed a W)) as (t & E & (C & L) & _). exists t. split; [assumption|split; [assumption|lia]].
  - intros more b L Hb. destruct (decode_ok _ (block_parsed more b L Hb)) as (t & E & (C & L2) & _). exists t. split; [assumption|split; [assumption|lia]].
Qed.

(** C54: integers of 1, 2, 3, 4, 6, 8 bytes are shown as their two's complement value. *)
Theorem C54_integer :
  forall a, wf_rec a -> int_record (a_dif a) (a_vif a) (nth 0 (a_vifes a) 0) ->
  exists t, mbus_data_record_decode (obj a) = Ok t /\ decimal (twos (length (a_value a)) (le (a_value a))) t.
Proof.
  intros a W H. assert (N : a_dif a mod 16 <> 13) by (unfold int_record in H; cbv zeta in H; lia).
  destruct (value_exact a W N) as [L V]. rewrite <- obj_vife0 in H.
  pose proof (decode_int (obj a) (obj_parsed a W) H) as E. cbv zeta in E.
  change (r_dif (obj a)) with (a_dif a) in E. rewrite V, <- L in E.
  eexists. split; [exact E|]. apply decimal_fmt.
Qed.

(** C54: dates and times. *)
Theorem C54_date :
  forall a day month year, wf_rec a -> a_dif a mod 16 = 2 -> vif_date (a_vif a) = true ->
  a_value a = type_g day month year -> 0 <= day <= 31 -> 0 <= month <= 15 -> 0 <= year <= 127 ->
  exists t, mbus_data_record_decode (obj a) = Ok t /\ iso_date (2000 + year) month day t.
Proof.
  intros a day month year W K V E H1 H2 H3.
  destruct (decode_date (obj a) (obj_parsed a W) K V) as (t & T & S & D).
  cbn [obj r_data] in T. unfold pad in T. rewrite E, tm_g in T by assumption. apply ok_inj in T. subst t.
  eexists. split; [exact D|]. apply iso_date_fmt in S. cbn [tm_year tm_mon tm_mday] in S.
  replace (100 + year + 1900) with (2000 + year) in S by lia. replace (month - 1 + 1) with month in S by lia. exact S.
Qed.
Theorem C54_datetime_f :
  forall a minute hour day month year hy su r0, wf_rec a -> a_dif a mod 16 = 4 ->
  vif_datetime (a_vif a) (nth 0 (a_vifes a) 0) = true ->
  a_value a = type_f minute hour day month year hy su 0 r0 ->
  0 <= minute <= 63 -> 0 <= hour <= 31 -> 0 <= day <= 31 -> 0 <= month <= 15 -> 0 <= year <= 127 ->
  0 <= hy <= 3 -> 0 <= su <= 1 -> 0 <= r0 <= 1 ->
  exists t, mbus_data_record_decode (obj a) = Ok t /\
    iso_datetime ((if (hy =? 0) && (year <=? 80) then 2000 else 1900 + 100 * hy) + year) month day hour minute 0 t.
Proof.
  intros a minute hour day month year hy su r0 W K V E H1 H2 H3 H4 H5 H6 H7 H8. rewrite <- obj_vife0 in V.
  destruct (decode_datetime (obj a) 4 (obj_parsed a W) (or_introl (conj K eq_refl)) V) as (t & T & S & D).
  cbn [obj r_data] in T. unfold pad in T. rewrite E, tm_f in T by assumption. apply ok_inj in T. subst t.
  eexists. split; [exact D|]. apply iso_datetime_fmt in S. cbn [tm_year tm_mon tm_mday tm_hour tm_min tm_sec] in S.
  replace (month - 1 + 1) with month in S by lia.
  replace ((if (hy =? 0) && (year <=? 80) then 2000 else 1900 + 100 * hy) + year)
     with ((if (hy =? 0) && (year <=? 80) then 100 + year else 100 * hy + year) + 1900) by (destruct (_ && _); lia). exact S.
Qed.
Theorem C54_datetime_i :
  forall a sec minute hour day month year dst lp r wd b5, wf_rec a -> a_dif a mod 16 = 6 ->
  vif_datetime (a_vif a) (nth 0 (a_vifes a) 0) = true ->
  a_value a = type_i sec minute hour day month year dst lp r 0 wd b5 ->
  0 <= sec <= 63 -> 0 <= minute <= 63 -> 0 <= hour <= 31 -> 0 <= day <= 31 -> 0 <= month <= 15 ->
  0 <= year <= 127 -> 0 <= dst <= 1 -> 0 <= lp <= 1 -> 0 <= r <= 1 -> 0 <= wd <= 7 ->
  exists t, mbus_data_record_decode (obj a) = Ok t /\ iso_datetime (2000 + year) month day hour minute sec t.
Proof.
  intros a sec minute hour day month year dst lp r wd b5 W K V E H1 H2 H3 H4 H5 H6 H7 H8 H9 H10. rewrite <- obj_vife0 in V.
  destruct (decode_datetime (obj a) 6 (obj_parsed a W) (or_intror (conj K eq_refl)) V) as (t & T & S & D).
  cbn [obj r_data] in T. unfold pad in T. rewrite E, tm_i in T by assumption. apply ok_inj in T. subst t.
  eexists. split; [exact D|]. apply iso_datetime_fmt in S. cbn [tm_year tm_mon tm_mday tm_hour tm_min tm_sec] in S.
  replace (month - 1 + 1) with month in S by lia. replace (100 + year + 1900) with (2000 + year) in S by lia. exact S.
Qed.

(** C54: packed BCD of 2, 4, 6, 8, 12 digits: the number, negative if the top digit is F; in an error record the raw
    digits in hexadecimal. *)
Theorem C54_bcd :
  forall a ds, wf_rec a -> In (a_dif a mod 16) [9; 10; 11; 12; 14] -> error_state (a_dif a) = false ->
  a_value a = pack_digits ds -> Forall (fun p => digit (fst p) /\ digit (snd p)) ds ->
  exists t, mbus_data_record_decode (obj a) = Ok t /\ decimal (dec (flat ds)) t.
Proof.
  intros a ds W K E V D. assert (N : a_dif a mod 16 <> 13) by (cbn [In] in K; lia).
  destruct (value_exact a W N) as [L _]. rewrite V, pack_length in L.
  eexists. split; [|apply decimal_fmt].
  apply (decode_bcd (obj a) (a_dif a mod 16) ds (repeat 0 (234 - length (a_value a)))); try assumption.
  - apply obj_parsed; assumption.
  - reflexivity.
  - cbn [obj r_data]. unfold pad. rewrite V at 1. reflexivity.
Qed.
Theorem C54_bcd_negative :
  forall a ds lo, wf_rec a -> In (a_dif a mod 16) [9; 10; 11; 12; 14] -> error_state (a_dif a) = false ->
  a_value a = pack_digits (ds ++ [(lo, 15)]) -> Forall (fun p => digit (fst p) /\ digit (snd p)) ds -> digit lo ->
  exists t, mbus_data_record_decode (obj a) = Ok t /\ decimal (- dec (flat ds ++ [lo])) t.
Proof.
  intros a ds lo W K E V D Hlo. assert (N : a_dif a mod 16 <> 13) by (cbn [In] in K; lia).
  destruct (value_exact a W N) as [L _]. rewrite V, pack_length, app_length in L. cbn [length] in L.
  eexists. split; [|apply decimal_fmt].
  apply (decode_bcd_negative (obj a) (a_dif a mod 16) ds lo (repeat 0 (234 - length (a_value a)))); try assumption.
  - apply obj_parsed; assumption.
  - reflexivity.
  - cbn [obj r_data]. unfold pad. rewrite V at 1. reflexivity.
Qed.
Theorem C54_bcd_error_state :
  forall a, wf_rec a -> In (a_dif a mod 16) [9; 10; 11; 12; 14] -> error_state (a_dif a) = true ->
  exists t, mbus_data_record_decode (obj a) = Ok t /\ hexadecimal (le (a_value a)) t.
Proof.
  intros a W K E. assert (N : a_dif a mod 16 <> 13) by (cbn [In] in K; lia).
  destruct (value_exact a W N) as [L V].
  eexists. split; [apply (decode_bcd_error (obj a) (a_dif a mod 16)); try assumption; [apply obj_parsed; assumption|reflexivity]|].
  change (r_dif (obj a)) with (a_dif a). rewrite V. apply hexadecimal_fmt_X.
  assert (P := obj_parsed a W). pose proof (le_firstn_range (r_data (obj a)) (dif_size (a_dif a)) ltac:(apply P)) as R.
  rewrite V in R. apply R. cbn [obj r_data]. unfold pad. rewrite app_length, repeat_length. lia.
Qed.

(** C54: reals (little-endian host): the IEEE value rounded to the nearest millionth. *)
Theorem C54_real :
  forall a, wf_rec a -> a_dif a mod 16 = 5 ->
  exists t, mbus_data_record_decode (obj a) = Ok t /\
  match ieee_value (le (a_value a)) with
  | Finite m e => exists n, read_millionths t = Some n /\ nearest_millionth m e n
  | Infinite false => t = cstr "inf"%string
  | Infinite true => t = cstr "-inf"%string
  | NaN => t = cstr "nan"%string \/ t = cstr "-nan"%string
  end.
Proof.
  intros a W K. destruct (value_exact a W ltac:(lia)) as [L V]. unfold dif_size in V. rewrite K in V.
  change (nth (Z.to_nat 5) _ 0%nat) with 4%nat in V.
  destruct (decode_real (obj a) (obj_parsed a W) K) as [E R]. rewrite V in *. eexists. split; [exact E|].
  apply fmt_f_value. assumption.
Qed.

(** C54: variable-length data: text (length byte up to BF) in reading order, otherwise hexadecimal, both sent last byte
    first. *)
Theorem C54_variable_length :
  forall a b w, wf_rec a -> a_dif a mod 16 = 13 -> a_value a = b :: w ->
  (b <= 0xBF -> c_chars w -> mbus_data_record_decode (obj a) = Ok (rev w)) /\
  (0xBF < b -> mbus_data_record_decode (obj a) = Ok (hex_text (rev w))).
Proof.
  intros a b w W K V. assert (P := obj_parsed a W).
  assert (F : firstn (r_len (obj a) - 1) (skipn 1 (r_data (obj a))) = w).
  { cbn [obj r_len r_data]. rewrite V. unfold pad. cbn [length app skipn]. replace (S (length w) - 1)%nat with (length w) by lia.
    apply firstn_app_exact. reflexivity. }
  assert (N : nth 0 (r_data (obj a)) 0 = b) by (cbn [obj r_data]; rewrite V; reflexivity).
  split; intros H.
  - intros Hc. rewrite decode_text by (try assumption; lia). rewrite F. f_equal.
    assert (Hr : c_chars (rev w)) by (apply Forall_rev; assumption).
    clear - Hr. induction Hr as [|c l H _ IH]; [reflexivity|]. cbn [c_text]. destruct (Z.eqb_spec c 0); [lia|]. rewrite IH. reflexivity.
  - rewrite decode_binary by (try assumption; lia). rewrite F. reflexivity.
Qed.
(** C54: manufacturer specific data in hexadecimal. *)
Theorem C54_block :
  forall more b, (length b <= 234)%nat -> bytes b ->
  mbus_data_record_decode (obj_block (tail_dif more) b) = Ok (hex_text (rev b)).
Proof.
  intros more b L Hb. rewrite decode_block; [|apply block_parsed; assumption|destruct more; reflexivity].
  cbn [obj_block r_len r_data]. unfold pad. rewrite firstn_app_exact by reflexivity. reflexivity.
Qed.
Print Assumptions C54_fits_buffer.
Print Assumptions C54_integer.
Print Assumptions C54_date.
Print Assumptions C54_datetime_f.
Print Assumptions C54_datetime_i.
Print Assumptions C54_bcd.
Print Assumptions C54_bcd_negative.
Print Assumptions C54_bcd_error_state.
Print Assumptions C54_real.
Print Assumptions C54_variable_length.
Print Assumptions C54_block.

(** Concrete records that meet the hypotheses. *)
Ltac wf_example :=
  cbn; unfold wf_rec, value_fits, is_byte; cbn;
  repeat match goal with |- _ /\ _ => split end; try lia; try discriminate; try reflexivity;
  try (intros; reflexivity); try (vm_compute; repeat constructor; discriminate); try (intros; discriminate).
Example C54_integer_nonvacuous :
  wf_rec (mkA 0x02 [] 0x13 [] [] [0x9C; 0xFF]) /\ int_record 0x02 0x13 0 /\
  mbus_data_record_decode (obj (mkA 0x02 [] 0x13 [] [] [0x9C; 0xFF])) = Ok (cstr "-100"%string).
Proof. split; [wf_example|]. split; [unfold int_record; cbv zeta; right; left; split; reflexivity|vm_compute; reflexivity]. Qed.
Example C54_date_nonvacuous :
  wf_rec (mkA 0x42 [] 0x6C [] [] [0xFB; 0x06]) /\ type_g 27 6 7 = [0xFB; 0x06] /\
  mbus_data_record_decode (obj (mkA 0x42 [] 0x6C [] [] [0xFB; 0x06])) = Ok (cstr "2007-06-27"%string).
Proof. split; [wf_example|]. split; vm_compute; reflexivity. Qed.
Example C54_datetime_nonvacuous :
  wf_rec (mkA 0x04 [] 0x6D [] [] [0x3B; 0xB7; 0x5F; 0x1A]) /\
  mbus_data_record_decode (obj (mkA 0x04 [] 0x6D [] [] [0x3B; 0xB7; 0x5F; 0x1A])) = Ok (cstr "2010-10-31T23:59:00"%string) /\
  wf_rec (mkA 0x06 [] 0xFD [] [0x30] [0x2A; 0x3B; 0x17; 0x5F; 0x1A; 0]) /\
  mbus_data_record_decode (obj (mkA 0x06 [] 0xFD [] [0x30] [0x2A; 0x3B; 0x17; 0x5F; 0x1A; 0])) = Ok (cstr "2010-10-31T23:59:42"%string).
Proof. split; [wf_example|]. split; [vm_compute; reflexivity|]. split; [wf_example|vm_compute; reflexivity]. Qed.
Example C54_bcd_nonvacuous :
  wf_rec (mkA 0x0C [] 0x13 [] [] [0x78; 0x56; 0x34; 0x12]) /\
  mbus_data_record_decode (obj (mkA 0x0C [] 0x13 [] [] [0x78; 0x56; 0x34; 0x12])) = Ok (cstr "12345678"%string) /\
  mbus_data_record_decode (obj (mkA 0x0A [] 0x13 [] [] [0x56; 0xF4])) = Ok (cstr "-456"%string) /\
  mbus_data_record_decode (obj (mkA 0x3A [] 0x13 [] [] [0xEE; 0xDD])) = Ok (cstr "DDEE"%string).
Proof. split; [wf_example|]. repeat split; vm_compute; reflexivity. Qed.
Example C54_real_nonvacuous :
  wf_rec (mkA 0x05 [] 0x13 [] [] [0xC3; 0xF5; 0x48; 0xC0]) /\
  mbus_data_record_decode (obj (mkA 0x05 [] 0x13 [] [] [0xC3; 0xF5; 0x48; 0xC0])) = Ok (cstr "-3.140000"%string).
Proof. split; [wf_example|vm_compute; reflexivity]. Qed.
Example C54_variable_nonvacuous :
  wf_rec (mkA 0x0D [] 0x78 [] [] [3; 0x43; 0x42; 0x41]) /\
  mbus_data_record_decode (obj (mkA 0x0D [] 0x78 [] [] [3; 0x43; 0x42; 0x41])) = Ok (cstr "ABC"%string) /\
  mbus_data_record_decode (obj (mkA 0x0D [] 0x78 [] [] [0xE2; 0x43; 0x42])) = Ok (cstr "42 43"%string).
Proof. split; [wf_example; exists 3, [0x43; 0x42; 0x41]; auto|]. split; vm_compute; reflexivity. Qed.
