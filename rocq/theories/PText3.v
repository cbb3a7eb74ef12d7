(** Proofs: meaning and bounds of the record value text (C54). *)
From Coq Require Import String.
From Coq Require Import List.
From Verif Require Import CBase PBase CStr MFrame MCodec MVar MText SText SCodec SVar SXml PCodec PCodec2 PVar3 PXml PText PText2.

Lemma land_7F v : is_byte v -> Z.land v 0x7F = v mod 128.
Proof. intros H. by_bytes v H. Qed.
Lemma land_0F v : is_byte v -> Z.land v 0x0F = v mod 16.
Proof. intros H. by_bytes v H. Qed.
Lemma land_30 v : is_byte v -> (Z.land v 0x30 =? 0x30) = error_state v.
Proof. intros H. apply eqb_prop. revert v H. apply byte_cases. vm_compute. reflexivity. Qed.

(** The selection of the branch, on spec-level conditions. *)
Definition vife0 (r : rec) : Z := nth 0 (r_vife r) 0.
Lemma decode_unfold r : parsed_rec r ->
  mbus_data_record_decode r =
  (let buff := repeat 0 768 in
   let k := r_dif r mod 16 in
   if k =? 0x00 then Ok []
   else if k =? 0x01 then let* (_, v) := mbus_data_int_decode (r_data r) 1 in Ok (fmt_d v)
   else if k =? 0x02 then
     if vif_date (r_vif r) then let* t := mbus_data_tm_decode (r_data r) 2 in Ok (fmt_date t)
     else let* (_, v) := mbus_data_int_decode (r_data r) 2 in Ok (fmt_d v)
   else if k =? 0x03 then let* (_, v) := mbus_data_int_decode (r_data r) 3 in Ok (fmt_d v)
   else if k =? 0x04 then
     if vif_datetime (r_vif r) (vife0 r) then let* t := mbus_data_tm_decode (r_data r) 4 in Ok (fmt_datetime t)
     else let* (_, v) := mbus_data_int_decode (r_data r) 4 in Ok (fmt_d v)
   else if k =? 0x05 then let* b := float_bits true (r_data r) in Ok (fmt_f b)
   else if k =? 0x06 then
     if vif_datetime (r_vif r) (vife0 r) then let* t := mbus_data_tm_decode (r_data r) 6 in Ok (fmt_datetime t)
     else let* (_, v) := mbus_data_long_long_decode (r_data r) 6 in Ok (fmt_d v)
   else if k =? 0x07 then let* (_, v) := mbus_data_long_long_decode (r_data r) 8 in Ok (fmt_d v)
   else if k =? 0x09 then bcd_text r 1
   else if k =? 0x0A then bcd_text r 2
   else if k =? 0x0B then bcd_text r 3
   else if k =? 0x0C then bcd_text r 4
   else if k =? 0x0E then bcd_text r 6
   else if k =? 0x0F then
     let* b := mbus_data_bin_decode buff (r_data r) (r_len r) 768 in Ok (c_text b)
   else if k =? 0x0D then
     if (r_len r =? 0)%nat then UB
     else
       let* d0 := rd (r_data r) 0 in
       if d0 <=? 0xBF then
         let* b := mbus_data_str_decode buff (skipn 1 (r_data r)) (r_len r - 1) in Ok (c_text b)
       else
         let* b := mbus_data_bin_decode buff (skipn 1 (r_data r)) (r_len r - 1) 768 in Ok (c_text b)
   else Ok (cstr "Unknown DIF (0x"%string ++ fmt_x2 (r_dif r) ++ cstr ")"%string)).
Proof.
  intros ((B1 & B2 & B3 & B4 & B5 & B6 & B7 & B8) & D & V & E & _).
  unfold mbus_data_record_decode, vif_date, vif_datetime. rewrite (rd_ok (r_vife r) 0) by lia. cbn [bind].
  fold (vife0 r). assert (Hv : is_byte (vife0 r)) by (apply bytes_nth; [assumption|lia]).
  cbv zeta. rewrite !land_7F, land_0F by assumption. rewrite <- !orb_assoc, <- !andb_orb_distrib_r. reflexivity.
Qed.

Ltac select_branch k :=
  repeat match goal with |- context [k =? ?c] => change (k =? c) with ltac:(let x := eval vm_compute in (k =? c) in exact x) end; cbv iota.

Lemma read_data r n : parsed_rec r -> (n <= 8)%nat -> (n <= length (r_data r))%nat.
Proof. intros ((B1 & B2 & B3 & B4 & B5 & B6 & B7 & B8) & _) H. lia. Qed.

(** Integers. *)
Lemma decode_int r : parsed_rec r -> int_record (r_dif r) (r_vif r) (vife0 r) ->
  let n := dif_size (r_dif r) in
  mbus_data_record_decode r = Ok (fmt_d (twos n (le (firstn n (r_data r))))).
Proof.
  intros P H. rewrite decode_unfold by assumption. cbv zeta. unfold int_record in H. cbv zeta in H. unfold dif_size.
  pose proof (read_data r) as L. assert (Hb : bytes (r_data r)) by apply P.
  destruct H as [H|[[H H1]|[H|[[H H1]|[[H H1]|H]]]]]; rewrite H; cbn [Z.eqb Pos.eqb Z.to_nat Pos.to_nat Pos.iter_op Nat.add nth];
    try rewrite H1.
  - rewrite int_decode_spec by (try assumption; try (apply L; [assumption|]); lia). reflexivity.
  - rewrite int_decode_spec by (try assumption; try (apply L; [assumption|]); lia). reflexivity.
  - rewrite int_decode_spec by (try assumption; try (apply L; [assumption|]); lia). reflexivity.
  - rewrite int_decode_spec by (try assumption; try (apply L; [assumption|]); lia). reflexivity.
  - rewrite long_long_decode_spec by (try assumption; try (apply L; [assumption|]); lia). reflexivity.
  - rewrite long_long_decode_spec by (try assumption; try (apply L; [assumption|]); lia). reflexivity.
Qed.

(** Dates. *)
Lemma iso_date_fmt t : tm_small t -> iso_date (tm_year t + 1900) (tm_mon t + 1) (tm_mday t) (fmt_date t).
Proof.
  intros (H1 & H2 & H3 & H4 & H5 & H6). do 3 eexists. split; [reflexivity|].
  split; [apply fmt_04d_width; lia|]. split; apply fmt_02d_width; lia.
Qed.
Lemma iso_datetime_fmt t : tm_small t ->
  iso_datetime (tm_year t + 1900) (tm_mon t + 1) (tm_mday t) (tm_hour t) (tm_min t) (tm_sec t) (fmt_datetime t).
Proof.
  intros H. do 4 eexists. split; [reflexivity|]. split; [apply iso_date_fmt; assumption|].
  destruct H as (H1 & H2 & H3 & H4 & H5 & H6). repeat split; apply fmt_02d_width; lia.
Qed.
Lemma in_range_small t : tm_in_range t -> tm_small t.
Proof. unfold tm_in_range, tm_small. lia. Qed.

Lemma decode_date r : parsed_rec r -> r_dif r mod 16 = 2 -> vif_date (r_vif r) = true ->
  exists t, mbus_data_tm_decode (r_data r) 2 = Ok t /\ tm_small t /\ mbus_data_record_decode r = Ok (fmt_date t).
Proof.
  intros P H H1. rewrite decode_unfold by assumption. cbv zeta. rewrite H, H1. cbn [Z.eqb Pos.eqb].
  destruct (tm_total (r_data r) 2) as (t & E & R & _); [apply P|apply read_data; [assumption|lia]|].
  rewrite E. exists t. split; [reflexivity|]. split; [apply in_range_small; assumption|reflexivity].
Qed.
Lemma decode_datetime r n : parsed_rec r -> (r_dif r mod 16 = 4 /\ n = 4%nat) \/ (r_dif r mod 16 = 6 /\ n = 6%nat) ->
  vif_datetime (r_vif r) (vife0 r) = true ->
  exists t, mbus_data_tm_decode (r_data r) n = Ok t /\ tm_small t /\ mbus_data_record_decode r = Ok (fmt_datetime t).
Proof.
  intros P H H1. rewrite decode_unfold by assumption. cbv zeta. rewrite H1.
  assert (Hn : (n <= 8)%nat) by lia.
  destruct (tm_total (r_data r) n) as (t & E & R & _); [apply P|apply read_data; assumption|].
  exists t. rewrite E. split; [reflexivity|]. split; [apply in_range_small; assumption|].
  destruct H as [[H ->]|[H ->]]; rewrite H; cbn [Z.eqb Pos.eqb]; rewrite E; reflexivity.
Qed.

(** BCD. *)
Lemma bcd_size r n : r_dif r mod 16 = n -> In n [9; 10; 11; 12; 14] ->
  parsed_rec r -> mbus_data_record_decode r = bcd_text r (dif_size (r_dif r)).
Proof.
  intros H Hn P. rewrite decode_unfold by assumption. unfold dif_size. cbv zeta. rewrite H.
  destruct Hn as [<-|[<-|[<-|[<-|[<-|[]]]]]]; reflexivity.
Qed.
Lemma to_int_id v : - 2 ^ 31 <= v < 2 ^ 31 -> to_int v = v.
Proof. intros H. unfold to_int. change (2 ^ 31) with 2147483648 in *. change (2 ^ 32) with 4294967296. lia. Qed.
Lemma decode_bcd r n ds rest : parsed_rec r -> r_dif r mod 16 = n -> In n [9; 10; 11; 12; 14] -> error_state (r_dif r) = false ->
  r_data r = pack_digits ds ++ rest -> length ds = dif_size (r_dif r) ->
  Forall (fun p => digit (fst p) /\ digit (snd p)) ds ->
  mbus_data_record_decode r = Ok (fmt_d (dec (flat ds))).
Proof.
  intros P H Hn He Hd Hl HF. rewrite (bcd_size r n) by assumption. unfold bcd_text.
  rewrite land_30 by apply P. rewrite He, <- Hl, Hd.
  assert (Hs : length ds = 1%nat \/ length ds = 2%nat \/ length ds = 3%nat \/ length ds = 4%nat \/ length ds = 6%nat).
  { rewrite Hl. unfold dif_size. rewrite H. destruct Hn as [<-|[<-|[<-|[<-|[<-|[]]]]]]; cbn; auto 6. }
  assert (Hbr : bytes rest). { assert (X : bytes (r_data r)) by apply P. rewrite Hd in X. apply bytes_app in X. tauto. }
  assert (Hbd : bytes (pack_digits ds ++ rest)). { rewrite <- Hd. apply P. }
  rewrite bcd_decode_digits by (try assumption; lia). cbn [bind].
  destruct (bcd_decode_total (pack_digits ds ++ rest) (length ds) Hbd) as (v & Ev & Av); [lia| |].
  { rewrite <- Hd. apply read_data; [assumption|lia]. }
  rewrite bcd_decode_digits in Ev by (try assumption; lia). apply ok_inj in Ev.
  destruct (Nat.leb_spec (length ds) 4) as [L|L]; [|reflexivity].
  rewrite to_int_id; [reflexivity|]. rewrite Ev.
  assert (2 * 100 ^ Z.of_nat (length ds) <= 200000000).
  { destruct Hs as [Hs|[Hs|[Hs|[Hs|Hs]]]]; [rewrite Hs; vm_compute; discriminate..|lia]. }
  change (2 ^ 31) with 2147483648. lia.
Qed.
Lemma decode_bcd_negative r n ds lo rest : parsed_rec r -> r_dif r mod 16 = n -> In n [9; 10; 11; 12; 14] ->
  error_state (r_dif r) = false ->
  r_data r = pack_digits (ds ++ [(lo, 15)]) ++ rest -> (length ds + 1)%nat = dif_size (r_dif r) ->
  Forall (fun p => digit (fst p) /\ digit (snd p)) ds -> digit lo ->
  mbus_data_record_decode r = Ok (fmt_d (- dec (flat ds ++ [lo]))).
Proof.
  intros P H Hn He Hd Hl HF Hlo. rewrite (bcd_size r n) by assumption. unfold bcd_text.
  rewrite land_30 by apply P. rewrite He, <- Hl, Hd.
  assert (Hs : length ds = 0%nat \/ length ds = 1%nat \/ length ds = 2%nat \/ length ds = 3%nat \/ length ds = 5%nat).
  { assert (X : (length ds + 1 = 1 \/ length ds + 1 = 2 \/ length ds + 1 = 3 \/ length ds + 1 = 4 \/ length ds + 1 = 6)%nat).
    { rewrite Hl. unfold dif_size. rewrite H. destruct Hn as [<-|[<-|[<-|[<-|[<-|[]]]]]]; cbn; auto 6. } lia. }
  assert (Hbr : bytes rest). { assert (X : bytes (r_data r)) by apply P. rewrite Hd in X. apply bytes_app in X. tauto. }
  assert (Hbd : bytes (pack_digits (ds ++ [(lo, 15)]) ++ rest)). { rewrite <- Hd. apply P. }
  rewrite bcd_decode_negative by (try assumption; lia). cbn [bind].
  destruct (bcd_decode_total _ (length ds + 1) Hbd) as (v & Ev & Av); [lia| |].
  { rewrite <- Hd. apply read_data; [assumption|lia]. }
  rewrite bcd_decode_negative in Ev by (try assumption; lia). apply ok_inj in Ev.
  destruct (Nat.leb_spec (length ds + 1) 4) as [L|L]; [|reflexivity].
  rewrite to_int_id; [reflexivity|]. rewrite Ev.
  assert (2 * 100 ^ Z.of_nat (length ds + 1) <= 200000000).
  { destruct Hs as [Hs|[Hs|[Hs|[Hs|Hs]]]]; [rewrite Hs; vm_compute; discriminate..|lia]. }
  change (2 ^ 31) with 2147483648. lia.
Qed.
Lemma decode_bcd_error r n : parsed_rec r -> r_dif r mod 16 = n -> In n [9; 10; 11; 12; 14] -> error_state (r_dif r) = true ->
  mbus_data_record_decode r = Ok (fmt_X (le (firstn (dif_size (r_dif r)) (r_data r)))).
Proof.
  intros P H Hn He. rewrite (bcd_size r n) by assumption. unfold bcd_text. rewrite land_30 by apply P. rewrite He.
  assert (Hs : (dif_size (r_dif r) <= 4)%nat \/ dif_size (r_dif r) = 6%nat).
  { unfold dif_size. rewrite H. destruct Hn as [<-|[<-|[<-|[<-|[<-|[]]]]]]; cbn; auto; left; lia. }
  rewrite bcd_hex_spec; [|apply P|lia|apply read_data; [assumption|lia]]. cbn [bind]. f_equal. f_equal.
  destruct (Nat.leb_spec (dif_size (r_dif r)) 4) as [L|L]; [|reflexivity].
  assert (R := le_firstn_range (r_data r) (dif_size (r_dif r)) ltac:(apply P) ltac:(apply read_data; [assumption|lia])).
  assert (256 ^ Z.of_nat (dif_size (r_dif r)) <= 256 ^ 4) by (apply Z.pow_le_mono_r; lia).
  change (256 ^ 4) with 4294967296 in *. unfold to_int. change (2 ^ 31) with 2147483648 in *. change (2 ^ 32) with 4294967296. lia.
Qed.

(** Reals. *)
Lemma round_div_nearest a b : 0 < b -> 2 * Z.abs (round_div a b * b - a) <= b.
Proof.
  intros Hb. unfold round_div. pose proof (Z.div_mod a b ltac:(lia)) as D. pose proof (Z.mod_pos_bound a b Hb) as R.
  destruct (Z.ltb_spec (2 * (a mod b)) b); [|destruct (Z.ltb_spec b (2 * (a mod b))); [|destruct (Z.even (a / b))]];
  rewrite ?Z.mul_add_distr_r; lia.
Qed.
Lemma round_div_nonneg a b : 0 < b -> 0 <= a -> 0 <= round_div a b.
Proof.
  intros Hb Ha. unfold round_div. assert (0 <= a / b) by (apply Z.div_pos; lia).
  repeat match goal with |- context [if ?c then _ else _] => destruct c end; lia.
Qed.
Lemma round_div_upper a b : 0 < b -> 0 <= a -> round_div a b <= a / b + 1.
Proof.
  intros Hb Ha. unfold round_div. repeat match goal with |- context [if ?c then _ else _] => destruct c end; lia.
Qed.

Lemma no_minus (A : Type) c (x y : A) : dec_char c -> match c with 45 => x | _ => y end = y.
Proof.
  intros H. unfold dec_char in H. assert (N : c <> 45) by lia. destruct c as [|p|]; try lia.
  do 6 (destruct p as [p|p|]; try reflexivity); exfalso; apply N; reflexivity.
Qed.

Lemma read_fraction a b : 0 <= a -> 0 <= b < 1000000 ->
  forall sg : bool, read_millionths ((if sg then [45] else []) ++ fmt_u a ++ 46 :: zpad 6 (fmt_u b))
  = Some (if sg then - (a * 1000000 + b) else a * 1000000 + b).
Proof.
  intros Ha Hb sg. set (body := fmt_u a ++ 46 :: zpad 6 (fmt_u b)).
  pose proof (fmt_u_len b 5 ltac:(change (10 ^ Z.of_nat 6) with 1000000; lia)) as Lb.
  assert (Lz : length (zpad 6 (fmt_u b)) = 6%nat) by (rewrite zpad_len; lia).
  assert (L : (length body - 7)%nat = length (fmt_u a)).
  { unfold body. rewrite app_length. cbn [length]. rewrite Lz. lia. }
  assert (F1 : firstn (length body - 7) body = fmt_u a) by (rewrite L; apply firstn_app_exact; reflexivity).
  assert (F2 : skipn (length body - 7) body = 46 :: zpad 6 (fmt_u b)) by (rewrite L; apply skipn_app_exact; reflexivity).
  assert (R2 : read_nat 10 (zpad 6 (fmt_u b)) = Some b) by (apply zpad_read; [lia|apply fmt_u_read; lia]).
  destruct sg; unfold read_millionths; cbn [app].
  - rewrite F1, F2, fmt_u_read by lia. rewrite R2. reflexivity.
  - assert (Hd : exists c t, body = c :: t /\ dec_char c).
    { pose proof (fmt_u_chars a Ha) as Hc. pose proof (fmt_digits_nonempty hex_upper 10 a) as Hn. unfold body.
      unfold fmt_u in *. destruct (fmt_digits hex_upper 10 a) as [|c t]; [congruence|]. inversion_clear Hc as [|? ? Hx _].
      exists c, (t ++ 46 :: zpad 6 (fmt_digits hex_upper 10 b)). split; [reflexivity|assumption]. }
    destruct Hd as (c & t & Eb & Hc).
    assert (E1 : match body with 45 :: _ => true | _ => false end = false) by (rewrite Eb; apply (no_minus bool c true false Hc)).
    assert (E2 : match body with 45 :: t => t | _ => body end = body) by (rewrite Eb; apply (no_minus (list Z) c t (c :: t) Hc)).
    rewrite E1, E2, F1, F2, fmt_u_read by lia. rewrite R2. reflexivity.
Qed.

Definition f_sig (bits : Z) : Z := if (bits / 2 ^ 23) mod 256 =? 0 then bits mod 2 ^ 23 else bits mod 2 ^ 23 + 2 ^ 23.
Definition f_ex (bits : Z) : Z := if (bits / 2 ^ 23) mod 256 =? 0 then -149 else (bits / 2 ^ 23) mod 256 - 150.
Definition f_n (bits : Z) : Z :=
  if 0 <=? f_ex bits then f_sig bits * 10 ^ 6 * 2 ^ f_ex bits else round_div (f_sig bits * 10 ^ 6) (2 ^ (- f_ex bits)).
Lemma fmt_f_unfold bits : 0 <= bits < 2 ^ 32 ->
  fmt_f bits = (if bits / 2 ^ 31 =? 0 then [] else [45]) ++
    (if (bits / 2 ^ 23) mod 256 =? 255 then (if bits mod 2 ^ 23 =? 0 then cstr "inf"%string else cstr "nan"%string)
     else fmt_u (f_n bits / 10 ^ 6) ++ 46 :: zpad 6 (fmt_u (f_n bits mod 10 ^ 6))).
Proof.
  intros H. unfold fmt_f, f_n, f_sig, f_ex. rewrite !Z.shiftr_div_pow2 by lia.
  change 0xFF with (Z.ones 8). change 0x7FFFFF with (Z.ones 23). rewrite !Z.land_ones by lia.
  change (2 ^ 8) with 256. reflexivity.
Qed.

Lemma f_n_range bits : 0 <= bits < 2 ^ 32 -> (bits / 2 ^ 23) mod 256 <> 255 -> 0 <= f_n bits < 10 ^ 45.
Proof.
  intros H N. unfold f_n.
  assert (Hs : 0 <= f_sig bits < 2 ^ 24).
  { unfold f_sig. pose proof (Z.mod_pos_bound bits (2 ^ 23) ltac:(lia)). change (2 ^ 24) with (2 * 2 ^ 23).
    destruct (_ =? 0); lia. }
  assert (He : -149 <= f_ex bits <= 104).
  { unfold f_ex. pose proof (Z.mod_pos_bound (bits / 2 ^ 23) 256 ltac:(lia)). destruct (Z.eqb_spec ((bits / 2 ^ 23) mod 256) 0); lia. }
  destruct (Z.leb_spec 0 (f_ex bits)) as [L|L].
  - assert (0 < 2 ^ f_ex bits <= 2 ^ 104) by (split; [apply Z.pow_pos_nonneg; lia|apply Z.pow_le_mono_r; lia]).
    change (10 ^ 45) with 1000000000000000000000000000000000000000000000. change (10 ^ 6) with 1000000.
    change (2 ^ 24) with 16777216 in Hs. change (2 ^ 104) with 20282409603651670423947251286016 in H0.
    clear - Hs H0. nia.
  - assert (P : 0 < 2 ^ (- f_ex bits)) by (apply Z.pow_pos_nonneg; lia).
    pose proof (round_div_nonneg (f_sig bits * 10 ^ 6) _ P ltac:(lia)).
    pose proof (round_div_upper (f_sig bits * 10 ^ 6) _ P ltac:(lia)).
    assert (f_sig bits * 10 ^ 6 / 2 ^ (- f_ex bits) <= f_sig bits * 10 ^ 6).
    { apply Z.div_le_upper_bound; [assumption|]. clear - P Hs. change (10 ^ 6) with 1000000. nia. }
    change (10 ^ 45) with 1000000000000000000000000000000000000000000000. change (10 ^ 6) with 1000000 in *.
    change (2 ^ 24) with 16777216 in Hs. lia.
Qed.

Lemma fmt_f_short bits : 0 <= bits < 2 ^ 32 -> short_plain (fmt_f bits).
Proof.
  intros H. rewrite fmt_f_unfold by assumption.
  assert (S1 : forall l, Forall plain l -> (length l <= 47)%nat -> short_plain ((if bits / 2 ^ 31 =? 0 then [] else [45]) ++ l)).
  { intros l Hl HL. destruct (_ =? 0); unfold short_plain; cbn [app length]; split; try lia; try assumption.
    constructor; [unfold plain; lia|assumption]. }
  destruct (Z.eqb_spec ((bits / 2 ^ 23) mod 256) 255) as [E|N].
  - destruct (bits mod 2 ^ 23 =? 0); (apply S1; [|cbn; lia]); cbn; repeat (apply Forall_cons; [unfold plain; lia|]); apply Forall_nil.
  - pose proof (f_n_range bits H N) as R.
    assert (Ha : 0 <= f_n bits / 10 ^ 6 < 10 ^ 39).
    { split; [apply Z.div_pos; lia|]. apply Z.div_lt_upper_bound; [lia|]. change (10 ^ 6 * 10 ^ 39) with (10 ^ 45). lia. }
    pose proof (Z.mod_pos_bound (f_n bits) (10 ^ 6) ltac:(lia)) as Hb.
    pose proof (fmt_u_len (f_n bits / 10 ^ 6) 38 ltac:(exact Ha)).
    pose proof (fmt_u_len (f_n bits mod 10 ^ 6) 5 ltac:(exact Hb)).
    apply S1.
    + apply Forall_app. split; [apply num_plain; eapply Forall_impl; [|apply fmt_u_chars; lia]; intros c Hc; left; exact Hc|].
      constructor; [unfold plain; lia|]. apply zpad_chars; [unfold plain; lia|].
      apply num_plain; eapply Forall_impl; [|apply fmt_u_chars; lia]; intros c Hc; left; exact Hc.
    + rewrite app_length. cbn [length]. rewrite zpad_len. lia.
Qed.

Lemma fmt_f_value bits : 0 <= bits < 2 ^ 32 ->
  match ieee_value bits with
  | Finite m e => exists n, read_millionths (fmt_f bits) = Some n /\ nearest_millionth m e n
  | Infinite false => fmt_f bits = cstr "inf"%string
  | Infinite true => fmt_f bits = cstr "-inf"%string
  | NaN => fmt_f bits = cstr "nan"%string \/ fmt_f bits = cstr "-nan"%string
  end.
Proof.
  intros H. rewrite fmt_f_unfold by assumption. unfold ieee_value.
  destruct (Z.eqb_spec ((bits / 2 ^ 23) mod 256) 255) as [E|N].
  - destruct (Z.eqb_spec (bits mod 2 ^ 23) 0); destruct (Z.eqb_spec (bits / 2 ^ 31) 0); cbn [negb app];
    try reflexivity; [left|right]; reflexivity.
  - pose proof (f_n_range bits H N) as R.
    pose proof (Z.mod_pos_bound (f_n bits) (10 ^ 6) ltac:(lia)) as Hb.
    assert (Rd := read_fraction (f_n bits / 10 ^ 6) (f_n bits mod 10 ^ 6) ltac:(apply Z.div_pos; lia) Hb (negb (bits / 2 ^ 31 =? 0))).
    assert (Sg : (if negb (bits / 2 ^ 31 =? 0) then [45] else []) = (if bits / 2 ^ 31 =? 0 then [] else [45])) by (destruct (_ =? 0); reflexivity).
    rewrite Sg in Rd.
    assert (Dm : f_n bits / 10 ^ 6 * 1000000 + f_n bits mod 10 ^ 6 = f_n bits).
    { change (10 ^ 6) with 1000000. pose proof (Z.div_mod (f_n bits) 1000000 ltac:(lia)). lia. }
    rewrite Dm in Rd.
    assert (Near : nearest_millionth (f_sig bits) (f_ex bits) (f_n bits)).
    { unfold nearest_millionth, f_n. destruct (Z.leb_spec 0 (f_ex bits)) as [L|L].
      - replace (Z.max 0 (- f_ex bits)) with 0 by lia. replace (Z.max 0 (f_ex bits)) with (f_ex bits) by lia.
        change (2 ^ 0) with 1. change (10 ^ 6) with 1000000. rewrite Z.mul_1_r, Z.sub_diag. cbn. lia.
      - replace (Z.max 0 (- f_ex bits)) with (- f_ex bits) by lia. replace (Z.max 0 (f_ex bits)) with 0 by lia.
        change (2 ^ 0) with 1. rewrite Z.mul_1_r. apply (round_div_nearest (f_sig bits * 10 ^ 6)). apply Z.pow_pos_nonneg; lia. }
    assert (NearNeg : forall m e n, nearest_millionth m e n -> nearest_millionth (- m) e (- n)).
    { intros m e n Hn. unfold nearest_millionth in *.
      replace (- n * 2 ^ Z.max 0 (- e) - - m * 1000000 * 2 ^ Z.max 0 e) with (- (n * 2 ^ Z.max 0 (- e) - m * 1000000 * 2 ^ Z.max 0 e)) by ring.
      rewrite Z.abs_opp. assumption. }
    unfold f_sig, f_ex in Near.
    destruct (Z.eqb_spec ((bits / 2 ^ 23) mod 256) 0) as [Z0|NZ].
    + destruct (Z.eqb_spec (bits / 2 ^ 31) 0); cbn [negb] in Rd.
      * exists (f_n bits). split; [exact Rd|exact Near].
      * exists (- f_n bits). split; [exact Rd|apply NearNeg; exact Near].
    + rewrite (Z.add_comm (bits mod 2 ^ 23)) in Near.
      destruct (Z.eqb_spec (bits / 2 ^ 31) 0); cbn [negb] in Rd.
      * exists (f_n bits). split; [exact Rd|exact Near].
      * exists (- f_n bits). split; [exact Rd|apply NearNeg; exact Near].
Qed.

Lemma decode_real r : parsed_rec r -> r_dif r mod 16 = 5 ->
  mbus_data_record_decode r = Ok (fmt_f (le (firstn 4 (r_data r)))) /\ 0 <= le (firstn 4 (r_data r)) < 2 ^ 32.
Proof.
  intros P H. rewrite decode_unfold by assumption. cbv zeta. rewrite H. cbn [Z.eqb Pos.eqb].
  rewrite float_bits_le by (apply read_data; [assumption|lia]). split; [reflexivity|].
  assert (R := le_firstn_range (r_data r) 4 ltac:(apply P) ltac:(apply read_data; [assumption|lia])). exact R.
Qed.

(** Text and binary data. *)
Lemma decode_text r : parsed_rec r -> r_dif r mod 16 = 13 -> nth 0 (r_data r) 0 <= 0xBF ->
  mbus_data_record_decode r = Ok (c_text (rev (firstn (r_len r - 1) (skipn 1 (r_data r))))).
Proof.
  intros P H Hd. rewrite decode_unfold by assumption. cbv zeta. rewrite H. cbn [Z.eqb Pos.eqb].
  assert (Hl : (1 <= r_len r <= 192)%nat). { apply P. rewrite land_0F by apply P. assumption. }
  destruct P as ((B1 & B2 & B3 & B4 & B5 & B6 & B7 & B8) & _).
  destruct (Nat.eqb_spec (r_len r) 0); [lia|]. rewrite rd_ok by lia. cbn [bind].
  destruct (Z.leb_spec (nth 0 (r_data r) 0) 0xBF); [|lia].
  rewrite str_decode_spec.
  - cbn [bind]. f_equal.
    set (l := rev (firstn (r_len r - 1) (skipn 1 (r_data r)))). generalize (skipn (S (r_len r - 1)) (repeat 0 768)). intros j.
    clear. induction l as [|c l IH]; [reflexivity|]. cbn [app c_text]. destruct (c =? 0); [reflexivity|]. rewrite IH. reflexivity.
  - rewrite skipn_length. lia.
  - rewrite repeat_length. lia.
Qed.

Lemma hex_text_plain l : bytes l -> Forall plain (hex_text l) /\ (length (hex_text l) <= 3 * length l)%nat.
Proof.
  intros H.
  assert (D : forall b, is_byte b -> plain (hex_digit (b / 16)) /\ plain (hex_digit (b mod 16))).
  { intros b Hb. assert (E : plainb (hex_digit (b / 16)) && plainb (hex_digit (b mod 16)) = true) by (revert b Hb; apply byte_cases; vm_compute; reflexivity).
    apply andb_prop in E. split; apply plainb_ok; tauto. }
  induction H as [|b l Hb Hl IH]; [cbn; split; [constructor|lia]|].
  destruct (D b Hb) as [D1 D2]. destruct l as [|b2 l].
  - cbn [hex_text length]. split; [do 2 (apply Forall_cons; [assumption|]); apply Forall_nil|lia].
  - destruct IH as [I1 I2]. change (hex_text (b :: b2 :: l)) with (hex_digit (b / 16) :: hex_digit (b mod 16) :: 32 :: hex_text (b2 :: l)).
    split; [do 3 (constructor; [first [assumption|unfold plain; lia]|]); assumption|]. cbn [length] in *. lia.
Qed.

Lemma bin_text d len : bytes d -> (len <= length d)%nat -> (len <= 254)%nat ->
  exists b, mbus_data_bin_decode (repeat 0 768) d len 768 = Ok b /\ c_text b = hex_text (rev (firstn len d)).
Proof.
  intros Hb Hl H. destruct (bin_decode_spec (repeat 0 768) d len 768 Hb Hl) as (b & E & Lb & F & _).
  { rewrite repeat_length. lia. }
  exists b. split; [assumption|]. replace (Nat.min len ((768 - 1) / 3)) with len in F.
  2:{ change ((768 - 1) / 3)%nat with 255%nat. lia. }
  rewrite (firstn_all2 (rev (firstn len d))) in F by (rewrite rev_length, firstn_length; lia).
  rewrite <- (firstn_skipn (length (hex_text (rev (firstn len d))) + 1) b), F, <- app_assoc. cbn [app].
  apply c_text_exact. apply plain_chars. apply hex_text_plain. apply Forall_rev. apply bytes_firstn. assumption.
Qed.

Lemma decode_block r : parsed_rec r -> r_dif r mod 16 = 15 ->
  mbus_data_record_decode r = Ok (hex_text (rev (firstn (r_len r) (r_data r)))).
Proof.
  intros P H. rewrite decode_unfold by assumption. cbv zeta. rewrite H. cbn [Z.eqb Pos.eqb].
  assert (Hb : bytes (r_data r)) by apply P.
  destruct P as ((B1 & B2 & B3 & B4 & B5 & B6 & B7 & B8) & _).
  destruct (bin_text (r_data r) (r_len r) Hb ltac:(lia) ltac:(lia)) as (b & E & T). rewrite E. cbn [bind]. rewrite T. reflexivity.
Qed.
Lemma decode_binary r : parsed_rec r -> r_dif r mod 16 = 13 -> 0xBF < nth 0 (r_data r) 0 ->
  mbus_data_record_decode r = Ok (hex_text (rev (firstn (r_len r - 1) (skipn 1 (r_data r))))).
Proof.
  intros P H Hd. rewrite decode_unfold by assumption. cbv zeta. rewrite H. cbn [Z.eqb Pos.eqb].
  assert (Hl : (1 <= r_len r <= 192)%nat). { apply P. rewrite land_0F by apply P. assumption. }
  assert (Hb : bytes (r_data r)) by apply P.
  destruct P as ((B1 & B2 & B3 & B4 & B5 & B6 & B7 & B8) & _).
  destruct (Nat.eqb_spec (r_len r) 0); [lia|]. rewrite rd_ok by lia. cbn [bind].
  destruct (Z.leb_spec (nth 0 (r_data r) 0) 0xBF); [lia|].
  destruct (bin_text (skipn 1 (r_data r)) (r_len r - 1)) as (b & E & T);
    [apply bytes_skipn; assumption|rewrite skipn_length; lia|lia|]. rewrite E. cbn [bind]. rewrite T. reflexivity.
Qed.

(** ** Every text fits *)
Lemma dif_split d : is_byte d -> 0 <= d mod 16 <= 15.
Proof. intros _. pose proof (Z.mod_pos_bound d 16 ltac:(lia)). lia. Qed.

Lemma bcd_text_short r n : parsed_rec r -> (1 <= n <= 6)%nat -> exists t, bcd_text r n = Ok t /\ short_plain t.
Proof.
  intros P Hn. unfold bcd_text. assert (Hb : bytes (r_data r)) by apply P. pose proof (read_data r n P ltac:(lia)) as L.
  destruct (Z.land (r_dif r) 0x30 =? 0x30).
  - rewrite bcd_hex_spec by (try assumption; lia). cbn [bind].
    eexists. split; [reflexivity|]. apply small_hex.
    assert (R := le_firstn_range (r_data r) n Hb L). assert (256 ^ Z.of_nat n <= 256 ^ 8) by (apply Z.pow_le_mono_r; lia).
    destruct (n <=? 4)%nat; [|lia].
    assert (forall v, 0 <= to_int v mod 2 ^ 32 < 256 ^ 8).
    { intros v. pose proof (Z.mod_pos_bound (to_int v) (2 ^ 32) ltac:(lia)). change (256 ^ 8) with (2 ^ 64).
      change (2 ^ 64) with (2 ^ 32 * 2 ^ 32). nia. }
    auto.
  - destruct (bcd_decode_total (r_data r) n Hb ltac:(lia) L) as (v & E & A). rewrite E. cbn [bind].
    eexists. split; [reflexivity|]. apply small_num.
    assert (100 ^ Z.of_nat n <= 100 ^ 6) by (apply Z.pow_le_mono_r; lia). change (100 ^ 6) with 1000000000000 in *.
    change (256 ^ 8) with 18446744073709551616.
    destruct (n <=? 4)%nat; [|lia]. unfold to_int. change (2 ^ 31) with 2147483648. change (2 ^ 32) with 4294967296. lia.
Qed.

Lemma fmt_x2_short d : is_byte d -> short_plain (cstr "Unknown DIF (0x"%string ++ fmt_x2 d ++ cstr ")"%string).
Proof.
  intros H. assert (E : forallb plainb (cstr "Unknown DIF (0x"%string ++ fmt_x2 d ++ cstr ")"%string)
    && (length (cstr "Unknown DIF (0x"%string ++ fmt_x2 d ++ cstr ")"%string) <=? 48)%nat = true).
  { revert d H. apply byte_cases. vm_compute. reflexivity. }
  apply andb_prop in E. destruct E as [E1 E2]. split; [|apply Nat.leb_le; assumption].
  apply Forall_forall. intros c Hc. apply plainb_ok. rewrite forallb_forall in E1. auto.
Qed.

Lemma int_short r n : parsed_rec r -> (1 <= n <= 8)%nat -> short_plain (fmt_d (twos n (le (firstn n (r_data r))))).
Proof.
  intros P H. apply small_num.
  assert (R := le_firstn_range (r_data r) n ltac:(apply P) ltac:(apply read_data; [assumption|lia])).
  pose proof (twos_abs n _ ltac:(lia) R). assert (256 ^ Z.of_nat n <= 256 ^ 8) by (apply Z.pow_le_mono_r; lia). lia.
Qed.

Lemma decode_short r : parsed_rec r -> r_dif r mod 16 <> 13 -> r_dif r mod 16 <> 15 ->
  exists t, mbus_data_record_decode r = Ok t /\ short_plain t.
Proof.
  intros P N1 N2. pose proof (dif_split (r_dif r) ltac:(apply P)) as R.
  assert (INT : int_record (r_dif r) (r_vif r) (vife0 r) -> (1 <= dif_size (r_dif r) <= 8)%nat ->
    exists t, mbus_data_record_decode r = Ok t /\ short_plain t).
  { intros I S1. pose proof (decode_int r P I) as E. cbv zeta in E. eexists. split; [exact E|]. apply int_short; assumption. }
  assert (Cases : In (r_dif r mod 16) [0;1;2;3;4;5;6;7;8;9;10;11;12;14]) by (cbn [In]; lia).
  cbn [In] in Cases.
  destruct Cases as [K|[K|[K|[K|[K|[K|[K|[K|[K|[K|[K|[K|[K|[K|[]]]]]]]]]]]]]]]; symmetry in K;
    try (destruct (bcd_text_short r (dif_size (r_dif r)) P) as (t & E & S1);
         [unfold dif_size; rewrite K; vm_compute; lia|exists t; rewrite (bcd_size r _ K) by (cbn [In]; auto 6); auto]; fail).
  - rewrite decode_unfold by assumption. cbv zeta. rewrite K. cbn [Z.eqb Pos.eqb]. exists []. split; [reflexivity|]. split; [constructor|cbn; lia].
  - apply INT; [unfold int_record; cbv zeta; tauto|unfold dif_size; rewrite K; vm_compute; lia].
  - destruct (vif_date (r_vif r)) eqn:V.
    + destruct (decode_date r P K V) as (t & _ & S1 & E). rewrite E. eexists. split; [reflexivity|]. apply date_short. assumption.
    + apply INT; [unfold int_record; cbv zeta; tauto|unfold dif_size; rewrite K; vm_compute; lia].
  - apply INT; [unfold int_record; cbv zeta; tauto|unfold dif_size; rewrite K; vm_compute; lia].
  - destruct (vif_datetime (r_vif r) (vife0 r)) eqn:V.
    + destruct (decode_datetime r 4 P (or_introl (conj K eq_refl)) V) as (t & _ & S1 & E). rewrite E. eexists. split; [reflexivity|]. apply datetime_short. assumption.
    + apply INT; [unfold int_record; cbv zeta; tauto|unfold dif_size; rewrite K; vm_compute; lia].
  - destruct (decode_real r P K) as [E B]. rewrite E. eexists. split; [reflexivity|]. apply fmt_f_short. assumption.
  - destruct (vif_datetime (r_vif r) (vife0 r)) eqn:V.
    + destruct (decode_datetime r 6 P (or_intror (conj K eq_refl)) V) as (t & _ & S1 & E). rewrite E. eexists. split; [reflexivity|]. apply datetime_short. assumption.
    + apply INT; [unfold int_record; cbv zeta; tauto|unfold dif_size; rewrite K; vm_compute; lia].
  - apply INT; [unfold int_record; cbv zeta; tauto|unfold dif_size; rewrite K; vm_compute; lia].
  - rewrite decode_unfold by assumption. cbv zeta. rewrite K. cbn [Z.eqb Pos.eqb]. eexists. split; [reflexivity|].
    apply fmt_x2_short. apply P.
Qed.

Lemma short_ctext t n : short_plain t -> (48 <= n)%nat -> ctext n t.
Proof. intros [H1 H2] H. split; [apply plain_chars; assumption|lia]. Qed.

Lemma hex_text_len l : (length (hex_text l) <= 3 * length l - 1)%nat.
Proof.
  induction l as [|b [|c l] IH]; [cbn; lia|cbn; lia|].
  change (hex_text (b :: c :: l)) with (hex_digit (b / 16) :: hex_digit (b mod 16) :: 32 :: hex_text (c :: l)).
  cbn [length] in *. lia.
Qed.

Lemma decode_ok r : parsed_rec r -> exists t, mbus_data_record_decode r = Ok t /\ ctext 701 t /\
  (r_dif r mod 16 <> 13 -> Forall plain t) /\ (r_dif r mod 16 <> 13 -> r_dif r mod 16 <> 15 -> (length t <= 48)%nat).
Proof.
  intros P. assert (Hb : bytes (r_data r)) by apply P.
  assert (BD : (r_len r <= 234)%nat /\ length (r_data r) = 234%nat) by (destruct P as ((B1 & B2 & B3 & B4 & B5 & B6 & B7 & B8) & _); auto).
  destruct (Z.eq_dec (r_dif r mod 16) 15) as [K|K].
  { rewrite decode_block by assumption. eexists. split; [reflexivity|].
    assert (HP : Forall plain (hex_text (rev (firstn (r_len r) (r_data r))))) by (apply hex_text_plain, Forall_rev, bytes_firstn; assumption).
    split; [|split; [auto|congruence]]. split; [apply plain_chars; assumption|].
    pose proof (hex_text_len (rev (firstn (r_len r) (r_data r)))) as L. rewrite rev_length, firstn_length in L. lia. }
  destruct (Z.eq_dec (r_dif r mod 16) 13) as [K2|K2].
  { assert (Hl : (1 <= r_len r <= 192)%nat). { apply P. rewrite land_0F by apply P. assumption. }
    destruct (Z.le_gt_cases (nth 0 (r_data r) 0) 0xBF) as [D|D].
    - rewrite decode_text by assumption. eexists. split; [reflexivity|]. split; [|split; congruence].
      split; [apply c_text_chars, Forall_rev, bytes_firstn, bytes_skipn; assumption|].
      pose proof (c_text_le_len (rev (firstn (r_len r - 1) (skipn 1 (r_data r))))) as L.
      rewrite rev_length, firstn_length in L. lia.
    - rewrite decode_binary by assumption. eexists. split; [reflexivity|]. split; [|split; congruence].
      split; [apply plain_chars, hex_text_plain, Forall_rev, bytes_firstn, bytes_skipn; assumption|].
      pose proof (hex_text_len (rev (firstn (r_len r - 1) (skipn 1 (r_data r))))) as L. rewrite rev_length, firstn_length in L. lia. }
  destruct (decode_short r P K2 K) as (t & E & S1). rewrite E. eexists. split; [reflexivity|].
  split; [apply short_ctext; [assumption|lia]|]. destruct S1 as [S1 S2]. split; auto.
Qed.
Lemma value_ok r : parsed_rec r -> mbus_data_record_value r = mbus_data_record_decode r.
Proof.
  intros P. unfold mbus_data_record_value. destruct (decode_ok r P) as (t & E & (_ & L) & _). rewrite E. cbn [bind].
  unfold cut. rewrite firstn_all2 by lia. reflexivity.
Qed.

(** Records of a telegram satisfy [parsed_rec]. *)
Lemma lvar_bound b : is_byte b -> 0 <= lvar_size b <= 191.
Proof.
  intros H. assert (E : (0 <=? lvar_size b) && (lvar_size b <=? 191) = true) by (revert b H; apply byte_cases; vm_compute; reflexivity).
  lia.
Qed.
Lemma obj_parsed a : wf_rec a -> parsed_rec (obj a).
Proof.
  intros W. assert (B : rec_bounds (obj a)).
  { pose proof (objs_bounds [Data a] None ltac:(constructor; [exact W|constructor]) I) as F. cbn in F. inversion F; assumption. }
  destruct W as (_ & _ & _ & _ & L1 & _ & L2 & L3 & NT & V & Hb). unfold enc_rec in Hb.
  inversion_clear Hb as [|? ? H1 H2]. apply bytes_app in H2. destruct H2 as [H2 H3]. inversion_clear H3 as [|? ? H4 H5].
  apply bytes_app in H5. destruct H5 as [H5 H6]. apply bytes_app in H6. destruct H6 as [H6 H7].
  assert (Ht : bytes (a_text a)).
  { destruct (has_text (a_vif a)) eqn:E; [|rewrite NT by reflexivity; constructor].
    inversion_clear H5 as [|? ? _ H8]. rewrite <- (rev_involutive (a_text a)). apply Forall_rev. assumption. }
  split; [assumption|]. unfold obj. cbn [r_dif r_vif r_vife r_dife r_custom r_data r_len].
  split; [assumption|]. split; [assumption|]. split; [apply pad_bytes; assumption|]. split; [apply pad_bytes; assumption|].
  split; [apply pad_bytes; assumption|]. split; [apply pad_bytes; assumption|].
  rewrite land_0F by assumption. intros K. unfold value_fits in V. rewrite K in V. cbn [Z.eqb Pos.eqb] in V.
  destruct V as (b & w & E & Lw). rewrite E in *. inversion_clear H7 as [|? ? Hb' _]. pose proof (lvar_bound b Hb').
  cbn [length]. lia.
Qed.
Lemma block_parsed more b : (length b <= 234)%nat -> bytes b -> parsed_rec (obj_block (tail_dif more) b).
Proof.
  intros L Hb. assert (B : rec_bounds (obj_block (tail_dif more) b)).
  { pose proof (objs_bounds [] (Some (more, b)) ltac:(constructor) ltac:(split; assumption)) as F. cbn in F. inversion F; assumption. }
  split; [assumption|]. unfold obj_block. cbn [r_dif r_vif r_vife r_dife r_custom r_data r_len].
  assert (N : bytes []) by constructor.
  split; [destruct more; unfold is_byte; cbn; lia|]. split; [unfold is_byte; lia|].
  do 3 (split; [apply pad_bytes; assumption|]). split; [apply pad_bytes; assumption|].
  destruct more; discriminate.
Qed.
Lemma objs_parsed its t : Forall wf_item its -> wf_tail t -> Forall parsed_rec (objs its ++ objs_tail t).
Proof.
  intros W Wt. apply Forall_app. split.
  - induction W as [|it its W1 W2 IH]; [constructor|]. unfold objs. cbn [flat_map]. apply Forall_app. split; [|exact IH].
    destruct it; [constructor|]. constructor; [|constructor]. apply obj_parsed. exact W1.
  - destruct t as [[m b]|]; [|constructor]. destruct Wt. constructor; [|constructor]. apply block_parsed; assumption.
Qed.
