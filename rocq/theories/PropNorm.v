(** Property C60: normalised records. *)
From Coq Require Import String.
From Coq Require Import List.
From Verif Require Import CBase PBase CStr MFrame MCodec MVar MText MUnit SVar SText SCodec SXml SUnit PCodec PCodec2 PVar3 PXml PText PText2 PText3 PXml3 PropText PropVar PropUnit PDouble SNorm PNorm.

Lemma obj_bytes a : wf_rec a -> is_byte (a_dif a) /\ is_byte (a_vif a) /\ is_byte (nth 0 (a_vifes a) 0) /\ bytes (a_vifes a) /\ bytes (a_text a).
Proof.
  intros W. assert (P := obj_parsed a W). destruct P as (B & D & V & E & _ & C & _). split; [assumption|]. split; [assumption|].
  cbn [obj r_vife r_custom] in *. unfold pad in *. apply bytes_app in E, C. destruct E as [E _], C as [C _]. split; [|auto].
  destruct (a_vifes a); [unfold is_byte; cbn; lia|]. inversion_clear E. assumption.
Qed.

(** The unit part, for every number. *)
Lemma unit_normalized a m exact value : near 4 exact value -> wf_rec a -> unit_of a = Some m -> (has_text (a_vif a) = true -> c_chars (a_text a)) ->
  ~ wrong_code (a_vif a) (nth 0 (a_vifes a) 0) ->
  exists x, mbus_vib_unit_normalize (obj a) value = Ok (Some (m_unit m, x, m_quantity m)) /\ in_base_unit a m exact x.
Proof.
  intros Nr W U C NW. destruct (obj_bytes a W) as (_ & Hv & H0 & _ & Ht).
  assert (Er : exists rest, r_vife (obj a) = nth 0 (a_vifes a) 0 :: rest).
  { cbn [obj r_vife]. unfold pad. destruct (a_vifes a) as [|v vs]; [exists (repeat 0 9); reflexivity|]. eexists. reflexivity. }
  destruct Er as [rest Er]. unfold unit_of in U. destruct (has_text (a_vif a)) eqn:T.
  - injection U as <-. specialize (C eq_refl). cbn [m_unit m_quantity m_factor]. unfold in_base_unit. cbn [m_factor]. unfold mbus_vib_unit_normalize.
    rewrite Er. cbn [rd nth_error bind]. change (r_vif (obj a)) with (a_vif a).
    assert (TV : a_vif a = 0x7C \/ a_vif a = 0xFC). { unfold has_text, is_byte in *. lia. }
    assert (TX : c_text (r_custom (obj a)) = a_text a).
    { cbn [obj r_custom]. unfold pad. assert (LT : (length (a_text a) <= 127)%nat) by (destruct W as (_ & _ & _ & _ & _ & _ & _ & LT & _); exact LT).
      replace (128 - length (a_text a))%nat with (S (127 - length (a_text a))) by lia. cbn [repeat]. apply c_text_exact. assumption. }
    rewrite TX. destruct TV as [TV|TV]; rewrite TV.
    + cbn [Z.eqb Pos.eqb orb Z.land Pos.land negb andb]. eexists. split; [reflexivity|]. unfold correction, offset. cbn [Z.ltb Z.compare Pos.compare Pos.compare_cont orb].
      destruct exact, value; cbn in Nr |- *; auto. apply (accurate_eq q _ 0 0); [ring|reflexivity|]. apply (err_accurate 4); [lia|assumption].
    + cbn [Z.eqb Pos.eqb orb Z.land Pos.land negb andb Pos.succ]. eexists. split; [reflexivity|].
      pose proof (correction_spec 0xFC (nth 0 (a_vifes a) 0) 4 exact value ltac:(unfold is_byte; lia) H0 ltac:(lia) ltac:(lia) ltac:(lia) ltac:(lia) Nr) as X.
      destruct exact, value; cbn in X, Nr |- *; try contradiction; [|exact X]. destruct (vife_correction _ _); cbn in X |- *; [|contradiction].
      eapply accurate_eq; [|reflexivity|exact X]. ring.
  - refine (vib_scaled (obj a) (nth 0 (a_vifes a) 0) rest m exact value Hv H0 Er _ U NW Nr).
    change (r_vif (obj a)) with (a_vif a). change (r_nvife (obj a)) with (length (a_vifes a)).
    destruct W as (_ & _ & _ & _ & _ & Ch & _). destruct (a_vifes a); [cbn in Ch; lia|cbn; lia].
Qed.

Lemma address_part a : wf_rec a -> (length (a_difes a) <= 8)%nat -> storage_number (a_dif a) (a_difes a) < 2 ^ 31 ->
  mbus_data_record_storage_number (obj a) = Ok (storage_number (a_dif a) (a_difes a)) /\
  mbus_data_record_tariff (obj a) = Ok (match a_difes a with [] => -1 | ds => tariff ds end) /\
  mbus_data_record_device (obj a) = Ok (match a_difes a with [] => -1 | ds => subunit ds end).
Proof.
  intros W L S. pose proof (obj_difes a W) as D. split; [apply C25_storage_number_partial; assumption|].
  destruct (a_difes a) as [|d ds] eqn:E; [apply (C25_no_dife _ _ D)|]. split; [apply (C25_tariff _ _ _ D)|apply (C25_device _ _ _ D)]; discriminate.
Qed.

Ltac a_record := split; [discriminate|split; [discriminate|split; [discriminate|]]]; cbn [a_dif a_difes a_vif a_vifes a_text a_value];
  split; [cbn; lia|]; split; [cbn; lia|]; split; [cbn; lia|]; split; [cbn; lia|]; split; [cbn; lia|]; split; [reflexivity|]; split; [|
    unfold enc_rec; cbn [a_dif a_difes a_vif a_vifes a_text a_value has_text app]; repeat (first [apply Forall_nil|apply Forall_cons; [unfold is_byte; lia|]])].

(** C60: the normalised record of a data record: its number in the base unit of its quantity, or its text; unit and
    quantity; function, storage number, tariff and subunit. Nothing that was allocated is lost. *)
Theorem C60_record_partial :
  forall a m c, wf_rec a -> means a c -> unit_of a = Some m -> ~ wrong_code (a_vif a) (nth 0 (a_vifes a) 0) ->
  (has_text (a_vif a) = true -> c_chars (a_text a)) -> (length (a_difes a) <= 8)%nat -> storage_number (a_dif a) (a_difes a) < 2 ^ 31 ->
  exists n, mbus_parse_variable_record (obj a) = Ok (Some n, false) /\ described a m n /\
    match c with
    | Number x => exists y, n_value n = VNum y /\ in_base_unit a m x y
    | Text t => exists size, n_value n = VStr t size /\ sized a t size
    end.
Proof.
  intros a m c W M U NW C L S. unfold mbus_parse_variable_record. destruct (address_part a W L S) as (A1 & A2 & A3). rewrite A1, A2, A3. cbn [bind].
  destruct (value_content a c W M) as (d & E & R & V). rewrite E. cbn [bind]. change (r_dif (obj a)) with (a_dif a).
  assert (ND : (a_dif a =? 0x0F) || (a_dif a =? 0x1F) = false) by (destruct W as (W1 & W2 & _); lia). rewrite ND, R. change (negb (0 =? 0)) with false. cbv iota.
  assert (X : exists x, mbus_vib_unit_normalize (obj a) (e_real d) = Ok (Some (m_unit m, x, m_quantity m)) /\
      match c with Number y => in_base_unit a m y x | Text _ => True end).
  { destruct c as [y|t].
    - destruct V as [_ V2]. apply (unit_normalized a m y (e_real d)); assumption.
    - destruct (unit_normalized a m (e_real d) (e_real d) (near_refl 4 _) W U C NW) as (x & X & _). eauto. }
  destruct X as (x & X & Sx). rewrite X. cbn [bind].
  eexists. split; [reflexivity|]. split.
  - unfold described. cbn [n_unit n_quantity n_function n_storage n_tariff n_device]. split; [reflexivity|]. split; [reflexivity|]. split; [|auto].
    destruct (function_spec (obj a)) as [F _]; [apply (obj_bytes a W)|]. exact F.
  - cbn [n_value]. destruct c as [y|t].
    + destruct V as [V1 V2]. rewrite V1. exists x. split; [reflexivity|assumption].
    + destruct V as [V1 V2]. rewrite V1. eauto.
Qed.

(** C60: the block of manufacturer data at the end. *)
Theorem C60_block :
  forall more b, (length b <= 234)%nat -> bytes b ->
  exists n size, mbus_parse_variable_record (obj_block (tail_dif more) b) = Ok (Some n, false) /\ n_value n = VStr (hex_text (rev b)) size /\
    n_function n = cstr (if more then "More records follow" else "Manufacturer specific") /\ n_unit n = None /\ n_quantity n = None /\
    n_storage n = 0 /\ n_tariff n = -1 /\ n_device n = -1.
Proof.
  intros more b L Hb. assert (P := block_parsed more b L Hb). unfold mbus_parse_variable_record.
  assert (D : has_difes (obj_block (tail_dif more) b) (tail_dif more) []).
  { split; [reflexivity|]. split; [reflexivity|]. split; [reflexivity|]. split; [reflexivity|]. split; [destruct more; unfold is_byte; cbn; lia|]. split; [constructor|cbn; lia]. }
  rewrite (C25_storage_number_partial _ _ _ D) by (destruct more; cbn; lia). destruct (C25_no_dife _ _ D) as [-> ->]. cbn [bind].
  rewrite value_unfold by assumption. cbv zeta. change (r_dif (obj_block (tail_dif more) b)) with (tail_dif more).
  replace (tail_dif more mod 16) with 15 by (destruct more; reflexivity). cbn [Z.eqb Pos.eqb]. change (r_len (obj_block (tail_dif more) b)) with (length b).
  rewrite text_hex; [|apply P|cbn [obj_block r_data]; unfold pad; rewrite app_length; lia]. cbn [bind].
  assert (F : firstn (length b) (r_data (obj_block (tail_dif more) b)) = b) by (cbn [obj_block r_data]; unfold pad; apply firstn_app_exact; reflexivity). rewrite F.
  destruct more; cbn [tail_dif Z.eqb Pos.eqb orb e_ret e_str negb]; eexists _, _; (split; [reflexivity|]); cbn; auto 10.
Qed.

(** Any record at all: its value is decoded, except if its DIF selects for readout (8). *)
Lemma value_total a : wf_rec a -> exists d, mbus_variable_value_decode (obj a) = Ok d /\ (if a_dif a mod 16 =? 8 then e_ret d = -2 /\ e_str d = None else e_ret d = 0).
Proof.
  intros W. assert (P := obj_parsed a W). rewrite value_unfold by assumption. cbv zeta. change (r_dif (obj a)) with (a_dif a).
  pose proof (read_data (obj a)) as L. assert (Hb : bytes (r_data (obj a))) by apply P. assert (Hl : length (r_data (obj a)) = 234%nat) by apply P.
  assert (B : (r_len (obj a) <= 234)%nat) by apply P.
  assert (INT : forall n, (1 <= n <= 4)%nat -> exists d, (let* (ret, v) := mbus_data_int_decode (r_data (obj a)) n in Ok (mkDec ret (real_of v) None 0)) = Ok d /\ e_ret d = 0).
  { intros n Hn. rewrite int_decode_spec by (try assumption; lia). eexists. split; reflexivity. }
  assert (LL : forall n, (1 <= n <= 8)%nat -> exists d, (let* (ret, v) := mbus_data_long_long_decode (r_data (obj a)) n in Ok (mkDec ret (real_of v) None 0)) = Ok d /\ e_ret d = 0).
  { intros n Hn. rewrite long_long_decode_spec by (try assumption; lia). eexists. split; reflexivity. }
  assert (BCD : forall n, (1 <= n <= 9)%nat -> exists d, (let* v := mbus_data_bcd_decode (r_data (obj a)) n in Ok (dec_num (real_of v))) = Ok d /\ e_ret d = 0).
  { intros n Hn. destruct (bcd_decode_total (r_data (obj a)) n Hb Hn ltac:(lia)) as (v & -> & _). eexists. split; reflexivity. }
  assert (PUT : forall m size (s : list Z), (1 <= m)%nat -> exists d, dec_text m size (fun b => put_list b 0 (cut m s ++ [0])) = Ok d /\ e_ret d = 0).
  { intros m size s Hm. unfold dec_text. rewrite put_list_ok; [eexists; split; reflexivity|]. rewrite app_length, repeat_length. unfold cut. rewrite firstn_length. cbn [length]. lia. }
  assert (DT : forall n, (n <= 8)%nat -> exists d, (let* t := mbus_data_tm_decode (r_data (obj a)) n in dec_text 21 (Z.of_nat (length (fmt_datetime t ++ [90]))) (fun b => put_list b 0 (cut 21 (fmt_datetime t ++ [90]) ++ [0]))) = Ok d /\ e_ret d = 0).
  { intros n Hn. destruct (tm_total (r_data (obj a)) n Hb ltac:(lia)) as (t & -> & _). cbn [bind]. apply PUT. lia. }
  pose proof (Z.mod_pos_bound (a_dif a) 16 ltac:(lia)) as R.
  assert (C : In (a_dif a mod 16) [0; 1; 2; 3; 4; 5; 6; 7; 8; 9; 10; 11; 12; 13; 14; 15]) by (cbn [In]; lia).
  cbn [In] in C.
  destruct C as [K|[K|[K|[K|[K|[K|[K|[K|[K|[K|[K|[K|[K|[K|[K|[K|[]]]]]]]]]]]]]]]]]; rewrite <- K; cbn [Z.eqb Pos.eqb].
  - eexists. split; reflexivity.
  - apply INT. lia.
  - destruct (vif_date _); [|apply INT; lia]. destruct (tm_total (r_data (obj a)) 2 Hb ltac:(lia)) as (t & -> & _). cbn [bind]. apply PUT. lia.
  - apply INT. lia.
  - destruct (vif_datetime _ _); [apply DT|apply INT]; lia.
  - rewrite float_bits_le by lia. eexists. split; reflexivity.
  - destruct (vif_datetime _ _); [apply DT|apply LL]; lia.
  - apply LL. lia.
  - eexists. split; [reflexivity|]. split; reflexivity.
  - apply BCD. lia.
  - apply BCD. lia.
  - apply BCD. lia.
  - apply BCD. lia.
  - rewrite rd_ok by lia. cbn [bind]. assert (Hr : (1 <= r_len (obj a) <= 192)%nat) by (apply P; rewrite PText3.land_0F by apply P; symmetry; exact K).
    destruct (Nat.eqb_spec (r_len (obj a)) 0); [lia|]. destruct (_ <=? _).
    + unfold dec_text. rewrite str_decode_spec by (rewrite ?skipn_length, ?repeat_length; lia). eexists. split; reflexivity.
    + rewrite text_hex by (try (apply bytes_skipn; assumption); rewrite skipn_length; lia). eexists. split; reflexivity.
  - apply BCD. lia.
  - rewrite text_hex by (try assumption; lia). eexists. split; reflexivity.
Qed.
Lemma rows_known : forallb (fun c => ((c =? 0x7B) || (c =? 0x7C) || (c =? 0x7D) || match find_row vif_table c with Some _ => true | None => false end) &&
  match find_row vif_table (0x100 + c) with Some _ => true | None => false end && match find_row vif_table (0x200 + c) with Some _ => true | None => false end) (codes 128) = true.
Proof. vm_compute. reflexivity. Qed.
Lemma rows_unknown : find_row vif_table 0x7B = None /\ find_row vif_table 0x7D = None.
Proof. vm_compute. auto. Qed.
Lemma unit_total a value : wf_rec a -> exists o, mbus_vib_unit_normalize (obj a) value = Ok o /\ (o = None <-> a_vif a = 0x7B \/ a_vif a = 0x7D).
Proof.
  intros W. destruct (obj_bytes a W) as (_ & Hv & H0 & _ & _). unfold mbus_vib_unit_normalize.
  assert (Er : exists rest, r_vife (obj a) = nth 0 (a_vifes a) 0 :: rest).
  { cbn [obj r_vife]. unfold pad. destruct (a_vifes a) as [|v vs]; [exists (repeat 0 9); reflexivity|]. eexists. reflexivity. }
  destruct Er as [rest Er]. rewrite Er. cbn [rd nth_error bind]. change (r_vif (obj a)) with (a_vif a). change (r_nvife (obj a)) with (length (a_vifes a)).
  set (v0 := nth 0 (a_vifes a) 0) in *. rewrite (land_mod128 v0 H0), (land_mod128 (a_vif a) Hv). unfold is_byte in *.
  assert (HN : 128 <= a_vif a -> (length (a_vifes a) =? 0)%nat = false).
  { destruct W as (_ & _ & _ & _ & _ & Ch & _). destruct (a_vifes a); [cbn in Ch; lia|reflexivity]. }
  pose proof (codes_all 128 _ rows_known (v0 mod 128) ltac:(lia)) as KV. pose proof (codes_all 128 _ rows_known (a_vif a mod 128) ltac:(lia)) as KF. cbv beta in KV, KF.
  apply andb_true_iff in KV, KF. destruct KV as [KV K2], KF as [KF _]. apply andb_true_iff in KV, KF. destruct KV as [_ K1], KF as [K0 _].
  destruct (Z.eqb_spec (a_vif a) 0xFD) as [E|N1].
  { rewrite HN by lia. rewrite lor_code by lia. unfold mbus_vif_unit_normalize. rewrite norm_code by lia. destruct (find_row vif_table (0x100 + v0 mod 128)); [|discriminate].
    cbn [Z.eqb]. destruct (_ && _); eexists; (split; [reflexivity|]); split; try discriminate; lia. }
  destruct (Z.eqb_spec (a_vif a) 0xFB) as [E|N2].
  { rewrite HN by lia. rewrite lor_code by lia. unfold mbus_vif_unit_normalize. rewrite norm_code by lia. destruct (find_row vif_table (0x200 + v0 mod 128)); [|discriminate].
    cbn [Z.eqb]. destruct (_ && _); eexists; (split; [reflexivity|]); split; try discriminate; lia. }
  destruct (Z.eqb_spec (a_vif a) 0x7C) as [E|N3].
  { cbn [orb]. destruct (_ && _); eexists; (split; [reflexivity|]); split; try discriminate; lia. }
  destruct (Z.eqb_spec (a_vif a) 0xFC) as [E|N4].
  { cbn [orb]. destruct (_ && _); eexists; (split; [reflexivity|]); split; try discriminate; lia. }
  cbn [orb]. unfold mbus_vif_unit_normalize. rewrite <- (Z.add_0_l (a_vif a mod 128)), norm_code by lia. rewrite Z.add_0_l in *.
  destruct (find_row vif_table (a_vif a mod 128)) as [row|] eqn:F.
  - cbn [Z.eqb]. assert (X : ~ (a_vif a = 0x7B \/ a_vif a = 0x7D)).
    { intros [X|X]; rewrite X in F; [change (0x7B mod 128) with 0x7B in F|change (0x7D mod 128) with 0x7D in F]; destruct rows_unknown; congruence. }
    destruct (_ && _); eexists; (split; [reflexivity|]); split; try discriminate; tauto.
  - cbn [Z.eqb]. eexists. split; [reflexivity|]. split; [intros _|reflexivity]. rewrite orb_false_r in K0. lia.
Qed.

(** C60: every record is either normalised or refused; refused are exactly the records that select for readout and
    those with a reserved unit code (7B, 7D without extension); nothing is lost except with a refused unit code. *)
Theorem C60_total :
  forall a, wf_rec a -> (length (a_difes a) <= 8)%nat -> storage_number (a_dif a) (a_difes a) < 2 ^ 31 ->
  exists o lost, mbus_parse_variable_record (obj a) = Ok (o, lost) /\
    (o = None <-> a_dif a mod 16 = 8 \/ a_vif a = 0x7B \/ a_vif a = 0x7D) /\
    (lost = true -> a_dif a mod 16 <> 8 /\ (a_vif a = 0x7B \/ a_vif a = 0x7D)).
Proof.
  intros a W L S. unfold mbus_parse_variable_record. destruct (address_part a W L S) as (A1 & A2 & A3). rewrite A1, A2, A3. cbn [bind].
  destruct (value_total a W) as (d & E & R). rewrite E. cbn [bind]. change (r_dif (obj a)) with (a_dif a).
  assert (ND : (a_dif a =? 0x0F) || (a_dif a =? 0x1F) = false) by (destruct W as (W1 & W2 & _); lia). rewrite ND.
  destruct (Z.eqb_spec (a_dif a mod 16) 8) as [K|K].
  - destruct R as [R1 R2]. rewrite R1, R2. cbn [Z.eqb negb]. eexists _, _. split; [reflexivity|]. split; [tauto|discriminate].
  - rewrite R. change (negb (0 =? 0)) with false. cbv iota. destruct (unit_total a (e_real d) W) as (o & U & N). rewrite U. cbn [bind].
    destruct o as [[[u x] q]|].
    + eexists _, _. split; [reflexivity|]. split; [|discriminate]. split; [discriminate|]. intros [X|X]; [contradiction|]. apply N in X. discriminate.
    + eexists _, _. split; [reflexivity|]. pose proof (proj1 N eq_refl). tauto.
Qed.
(** C60 fails: the text of a record whose unit code is not in the tables is allocated and lost (VIF 7B is reserved);
    the record is refused. *)
Theorem C60_leak_refuted : exists a, wf_rec a /\ means a (Text (cstr "ab")) /\ mbus_parse_variable_record (obj a) = Ok (None, true).
Proof.
  exists (mkA 0x0D [] 0x7B [] [] [2; 98; 97]). split; [|split].
  - a_record. exists 2, (rev (cstr "ab")). split; reflexivity.
  - apply (me_text _ 2 (rev (cstr "ab"))); [reflexivity|reflexivity|lia|]. cbn. repeat (constructor; [lia|]). constructor.
  - vm_compute. reflexivity.
Qed.
(** C60 fails: the additive correction (VIFE 78-7B) counts in the unit of the VIF; the library adds it in the base
    unit. 1000 at VIF 93 (10^-3 m^3) with VIFE 7B (plus 1): 1.001 m^3; the library delivers 2 m^3. *)
Theorem C60_offset_refuted : exists a n y, wf_rec a /\ means a (Number (Num 1000)) /\ a_vif a = 0x93 /\ a_vifes a = [0x7B] /\
  mbus_parse_variable_record (obj a) = Ok (Some n, false) /\ n_value n = VNum (Num y) /\ (y == 2)%Q /\ n_unit n = Some (cstr "m^3").
Proof.
  exists (mkA 0x04 [] 0x93 [] [0x7B] [0xE8; 0x03; 0; 0]). eexists _, _. split; [|split; [|split; [reflexivity|split; [reflexivity|]]]].
  - a_record. reflexivity.
  - apply (me_int (mkA 0x04 [] 0x93 [] [0x7B] [0xE8; 0x03; 0; 0])). right. right. right. left. split; reflexivity.
  - split; [vm_compute; reflexivity|]. split; [reflexivity|]. split; [vm_compute; reflexivity|]. vm_compute. reflexivity.
Qed.
(** 12345678 in BCD at VIF 13, maximum, storage 1, tariff 2: 12345.678 m^3. *)
Example C60_example :
  let a := mkA 0xDC [0x20] 0x13 [] [] [0x78; 0x56; 0x34; 0x12] in
  exists m n y, wf_rec a /\ means a (Number (Num 12345678)) /\ unit_of a = Some m /\ mbus_parse_variable_record (obj a) = Ok (Some n, false) /\
    n_value n = VNum y /\ scales (Num 12345678) (1 # 1000) 0 y /\ n_unit n = Some (cstr "m^3") /\ n_quantity n = Some (cstr "Volume") /\
    n_function n = cstr "Maximum value" /\ n_storage n = 1 /\ n_tariff n = 2 /\ n_device n = 0.
Proof.
  eexists _, _, _. split; [|split; [|split; [reflexivity|]]].
  - a_record. reflexivity.
  - apply (me_bcd _ [(8, 7); (6, 5); (4, 3); (2, 1)]); [cbn; auto 10|reflexivity|]. repeat (constructor; [unfold digit; cbn; lia|]). constructor.
  - split; [vm_compute; reflexivity|]. split; [reflexivity|]. split; [vm_compute; discriminate|]. repeat split; vm_compute; reflexivity.
Qed.
