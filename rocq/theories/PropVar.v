(** Property theorems C22-C27, C49, C50, C57 (payload parsers). Vocabulary: SVar.v. *)
From Verif Require Import CBase MFrame MVar SVar PVar PVar2 PVar3.

(** C22: every well-formed body is parsed into exactly its records. *)
Theorem C22_parse_encoded :
  forall f h its t dv0, carries f (h ++ enc_body its t) -> length h = 12%nat ->
  Forall wf_item its -> wf_tail t ->
  mbus_data_variable_parse f dv0 = Ok (0, dvar_of h its t).
Proof. exact parse_encoded. Qed.
(** C22, converse: nothing else is accepted. *)
Theorem C22_accepts_only_encodings :
  forall f p dv0 dv, carries f p -> mbus_data_variable_parse f dv0 = Ok (0, dv) ->
  exists h its t, length h = 12%nat /\ p = h ++ enc_body its t /\ Forall wf_item its /\ wf_tail t /\ dv = dvar_of h its t.
Proof. exact parse_only_encodings. Qed.
(** C22: the layout is unambiguous. *)
Theorem C22_unambiguous :
  forall its1 t1 its2 t2, Forall wf_item its1 -> wf_tail t1 -> Forall wf_item its2 -> wf_tail t2 ->
  enc_body its1 t1 = enc_body its2 t2 -> its1 = its2 /\ t1 = t2.
Proof. exact enc_unique. Qed.
Print Assumptions C22_parse_encoded.
Print Assumptions C22_accepts_only_encodings.
Print Assumptions C22_unambiguous.

Definition ex_header : list Z := [0x78; 0x56; 0x34; 0x12; 0x24; 0x40; 1; 7; 0x55; 0; 0; 0].
Definition ex_rec1 : arec := mkA 0x8C [0x90; 0x01] 0x93 [] [0x3C] [1; 2; 3; 4].
Definition ex_rec2 : arec := mkA 0x0D [] 0xFC [0x6B; 0x57; 0x68] [0x73] [3; 0x43; 0x42; 0x41].
Definition ex_its : list item := [Data ex_rec1; Filler; Data ex_rec2].
Definition ex_tail : tail := Some (true, [9; 8; 7]).
Lemma ex_wf : Forall wf_item ex_its /\ wf_tail ex_tail.
Proof.
  split.
  - unfold ex_its. repeat (constructor; [|]); try constructor; try exact I; cbn [wf_item];
    unfold wf_rec, value_fits, ex_rec1, ex_rec2, is_byte; cbn;
    repeat match goal with |- _ /\ _ => split end; try lia; try discriminate; try reflexivity;
    try (intros; reflexivity); try (repeat constructor; unfold is_byte; lia); try (intros; discriminate).
    exists 3, [0x43; 0x42; 0x41]. auto.
  - cbn. split; [lia|]. repeat constructor; unfold is_byte; lia.
Qed.
Lemma reply_carries p s : bytes p -> is_byte s -> (length p <= 252)%nat -> carries (reply p s) p.
Proof.
  intros Hp Hs Hl. unfold carries, reply, DATA_LEN. cbn [fdata data_size].
  rewrite app_length, repeat_length. split; [lia|]. split.
  - apply Forall_app. split; [assumption|]. apply Forall_forall. intros x Hx. apply repeat_spec in Hx. subst. assumption.
  - split; [reflexivity|]. split; [|lia]. apply PBase.firstn_app_exact. reflexivity.
Qed.
Example C22_nonvacuous :
  carries (reply (ex_header ++ enc_body ex_its ex_tail) 0xEE) (ex_header ++ enc_body ex_its ex_tail) /\
  exists r1 r2 r3, mbus_data_variable_parse (reply (ex_header ++ enc_body ex_its ex_tail) 0xEE) (mkVar [] [] 0 0)
  = Ok (0, mkVar ex_header [r1; r2; r3] 3 1) /\
    firstn (r_len r1) (r_data r1) = [1; 2; 3; 4] /\ firstn 4 (r_custom r2) = [0x6B; 0x57; 0x68; 0] /\ r_dif r3 = 0x1F.
Proof.
  split.
  - apply reply_carries; [|unfold is_byte; lia|cbn; lia]. vm_compute. repeat constructor; discriminate.
  - exists (obj ex_rec1), (obj ex_rec2), (obj_block 0x1F [9; 8; 7]). split; [vm_compute; reflexivity|]. vm_compute. auto.
Qed.

(** C23: no access outside the arrays, for payloads up to 250 bytes without a 128-character unit
    text and without a manufacturer block longer than the record's data array. *)
Theorem C23_parse_memory_safe_partial :
  forall f p dv0, carries f p -> (length p <= 250)%nat ->
  ~ long_text (skipn 12 p) -> ~ long_block (skipn 12 p) ->
  exists c dv, mbus_data_variable_parse f dv0 = Ok (c, dv).
Proof. exact parse_safe. Qed.
Theorem C23_parse_memory_safe_247_partial :
  forall f p dv0, carries f p -> (length p <= 247)%nat -> ~ long_text (skipn 12 p) ->
  exists c dv, mbus_data_variable_parse f dv0 = Ok (c, dv).
Proof. exact parse_safe_247. Qed.
Print Assumptions C23_parse_memory_safe_partial.
Print Assumptions C23_parse_memory_safe_247_partial.
(** C23 is false of the code in three ways. A manufacturer block of 235 bytes (payload 248) overruns
    the record's 234-byte data array; *)
Theorem C23_long_block_refuted :
  exists f p, carries f p /\ length p = 248%nat /\ forall dv0, mbus_data_variable_parse f dv0 = UB.
Proof.
  exists (reply (ex_header ++ 0x0F :: repeat 5 235) 0), (ex_header ++ 0x0F :: repeat 5 235). split.
  - apply reply_carries; [|unfold is_byte; lia|cbn; lia]. vm_compute. repeat constructor; discriminate.
  - split; [reflexivity|]. intros dv0. vm_compute. reflexivity.
Qed.
(** a plain-text unit of exactly 128 characters writes its terminator behind custom_vif[128]; *)
Theorem C23_long_text_refuted :
  exists f p, carries f p /\ length p = 143%nat /\ forall dv0, mbus_data_variable_parse f dv0 = UB.
Proof.
  exists (reply (ex_header ++ 0x00 :: 0x7C :: 128 :: repeat 65 128) 0), (ex_header ++ 0x00 :: 0x7C :: 128 :: repeat 65 128). split.
  - apply reply_carries; [|unfold is_byte; lia|cbn; lia]. vm_compute. repeat constructor; discriminate.
  - split; [reflexivity|]. intros dv0. vm_compute. reflexivity.
Qed.
(** a 252-byte payload ending in a DIF makes the parser read data[252]. *)
Theorem C23_read_past_end_refuted :
  exists f p, carries f p /\ length p = 252%nat /\ forall dv0, mbus_data_variable_parse f dv0 = UB.
Proof.
  exists (reply (ex_header ++ repeat 0x2F 239 ++ [0x01]) 0), (ex_header ++ repeat 0x2F 239 ++ [0x01]). split.
  - apply reply_carries; [|unfold is_byte; lia|cbn; lia]. vm_compute. repeat constructor; discriminate.
  - split; [reflexivity|]. intros dv0. vm_compute. reflexivity.
Qed.
Print Assumptions C23_long_block_refuted.
Print Assumptions C23_long_text_refuted.
Print Assumptions C23_read_past_end_refuted.
Example C23_nonvacuous : (* a hostile payload: truncated plain text *)
  ~ long_text (skipn 12 (ex_header ++ [0x04; 0xFC; 0x7F; 1; 2])) /\
  forall s, mbus_data_variable_parse (reply (ex_header ++ [0x04; 0xFC; 0x7F; 1; 2]) s) (mkVar [] [] 0 0) = Ok (-1, mkVar ex_header [] 0 0).
Proof.
  split.
  - cbn [ex_header app skipn]. intros (p & H1 & _ & H2). cbn [length] in H1.
    do 4 (destruct p as [|p]; [cbn in H2; lia|]). lia.
  - intros s. cbn. reflexivity.
Qed.

(** C24: bookkeeping, whatever the payload. *)
Theorem C24_bookkeeping :
  forall f p dv0 c dv, carries f p -> (12 <= length p)%nat ->
  mbus_data_variable_parse f dv0 = Ok (c, dv) ->
  (c = 0 \/ c = -1) /\ v_nrecords dv = Z.of_nat (length (v_records dv)) /\ v_header dv = firstn 12 p /\
  Forall rec_bounds (v_records dv) /\ (v_more dv = 0 \/ v_more dv = 1) /\
  (v_more dv = 1 <-> c = 0 /\ exists r, last (v_records dv) rec_new = r /\ r_dif r = 0x1F /\ v_records dv <> []).
Proof. exact bookkeeping. Qed.
(** C24: on any outcome the payload splits into the records in the list and the unparsed rest; the rest is
    empty exactly if 0 is returned. *)
Theorem C24_consumed :
  forall f p dv0 c dv, carries f p -> (12 <= length p)%nat ->
  mbus_data_variable_parse f dv0 = Ok (c, dv) ->
  exists h its t rest, length h = 12%nat /\ p = h ++ enc_body its t ++ rest /\
    Forall wf_item its /\ wf_tail t /\ dv = dvar_of h its t /\
    ((c = 0 /\ rest = []) \/ (c = -1 /\ t = None /\ rest <> [])).
Proof. exact parse_shape. Qed.
(** C24: records before a faulty one are kept. *)
Theorem C24_records_before_fault_kept :
  forall f h its rest dv0 c dv, carries f (h ++ flat_map enc_item its ++ rest) -> length h = 12%nat ->
  Forall wf_item its -> mbus_data_variable_parse f dv0 = Ok (c, dv) ->
  exists more, v_records dv = objs its ++ more /\ v_header dv = h.
Proof. exact parse_prefix. Qed.
(** C24: a payload shorter than the header is refused, and the record list in the object is left as it was. *)
Theorem C24_short_header :
  forall f p dv0, carries f p -> (length p < 12)%nat ->
  mbus_data_variable_parse f dv0 = Ok (-1, mkVar (v_header dv0) (v_records dv0) 0 0).
Proof. exact parse_short. Qed.
Print Assumptions C24_bookkeeping.
Print Assumptions C24_consumed.
Print Assumptions C24_records_before_fault_kept.
Print Assumptions C24_short_header.
Example C24_nonvacuous :
  exists dv, mbus_data_variable_parse (reply (ex_header ++ enc_rec ex_rec1 ++ [0x0D; 0x13; 0xC5; 1; 2]) 0) (mkVar [] [] 0 0) = Ok (-1, dv)
   /\ v_records dv = [obj ex_rec1] /\ v_nrecords dv = 1.
Proof. exists (mkVar ex_header [obj ex_rec1] 1 0). vm_compute. auto. Qed.

(** C57: the result depends on the payload only, not on bytes left in the array behind it. *)
Theorem C57_stale_bytes_ignored :
  forall f1 f2 p dv1 dv2, carries f1 p -> carries f2 p -> (12 <= length p <= 250)%nat ->
  mbus_data_variable_parse f1 dv1 = mbus_data_variable_parse f2 dv2.
Proof. exact parse_stale. Qed.
Print Assumptions C57_stale_bytes_ignored.
Example C57_nonvacuous :
  carries (reply (ex_header ++ [0x8C]) 0x10) (ex_header ++ [0x8C]) /\ carries (reply (ex_header ++ [0x8C]) 0xFC) (ex_header ++ [0x8C]) /\
  mbus_data_variable_parse (reply (ex_header ++ [0x8C]) 0xFC) (mkVar [] [] 0 0) = Ok (-1, mkVar ex_header [] 0 0).
Proof.
  split; [|split]; [apply reply_carries; [|unfold is_byte; lia|cbn; lia]..|vm_compute; reflexivity];
    vm_compute; repeat constructor; discriminate.
Qed.

(** C25: storage number (as long as it fits in 31 bits), tariff and subunit. *)
Theorem C25_storage_number_partial :
  forall r dif difes, has_difes r dif difes -> (length difes <= 8)%nat -> storage_number dif difes < 2 ^ 31 ->
  mbus_data_record_storage_number r = Ok (storage_number dif difes).
Proof. exact storage_spec. Qed.
Theorem C25_tariff :
  forall r dif difes, has_difes r dif difes -> difes <> [] -> mbus_data_record_tariff r = Ok (tariff difes).
Proof. exact tariff_spec. Qed.
Theorem C25_device :
  forall r dif difes, has_difes r dif difes -> difes <> [] -> mbus_data_record_device r = Ok (subunit difes).
Proof. exact device_spec. Qed.
Theorem C25_no_dife :
  forall r dif, has_difes r dif [] -> mbus_data_record_tariff r = Ok (-1) /\ mbus_data_record_device r = Ok (-1).
Proof. exact no_dife. Qed.
(** C25 is false for the storage number of records the parser accepts: with 8 DIFEs the sign bit is shifted into,
    with 9 the shift count exceeds the width of int. *)
Theorem C25_storage_number_refuted :
  (exists r difes, has_difes r 0x84 difes /\ length difes = 8%nat /\ mbus_data_record_storage_number r = UB) /\
  (forall r dif difes, has_difes r dif difes -> (9 <= length difes)%nat -> mbus_data_record_storage_number r = UB).
Proof.
  split.
  - exists (obj (mkA 0x84 [0x80; 0x80; 0x80; 0x80; 0x80; 0x80; 0x80; 0x04] 0x13 [] [] [1; 2; 3; 4])),
      [0x80; 0x80; 0x80; 0x80; 0x80; 0x80; 0x80; 0x04].
    split; [|split; [reflexivity|vm_compute; reflexivity]].
    unfold has_difes. cbn. repeat split; try lia; try reflexivity. repeat constructor; unfold is_byte; lia.
  - intros r dif difes (H1 & H2 & H3 & H4 & H5 & H6 & H7) H9. unfold mbus_data_record_storage_number. rewrite H2.
    apply storage_loop_UB; lia.
Qed.
Print Assumptions C25_storage_number_partial.
Print Assumptions C25_tariff.
Print Assumptions C25_device.
Print Assumptions C25_no_dife.
Print Assumptions C25_storage_number_refuted.
Example C25_nonvacuous :
  has_difes (obj (mkA 0xC4 [0xF3; 0x25] 0x13 [] [] [1; 2; 3; 4])) 0xC4 [0xF3; 0x25] /\
  mbus_data_record_storage_number (obj (mkA 0xC4 [0xF3; 0x25] 0x13 [] [] [1; 2; 3; 4])) = Ok (1 + 2 * (3 + 16 * 5)) /\
  mbus_data_record_tariff (obj (mkA 0xC4 [0xF3; 0x25] 0x13 [] [] [1; 2; 3; 4])) = Ok 11 /\
  mbus_data_record_device (obj (mkA 0xC4 [0xF3; 0x25] 0x13 [] [] [1; 2; 3; 4])) = Ok 1.
Proof.
  split; [|vm_compute; auto]. unfold has_difes. cbn. repeat split; try lia; try reflexivity.
  repeat constructor; unfold is_byte; lia.
Qed.

(** C26: fixed data structure. *)
Theorem C26_fixed_parse :
  forall f p df, carries f p ->
  (length p = 16%nat -> exists x, mbus_data_fixed_parse f df = Ok (0, x) /\ fixed_layout p x) /\
  (length p <> 16%nat -> mbus_data_fixed_parse f df = Ok (-1, df)).
Proof. exact fixed_spec. Qed.
Print Assumptions C26_fixed_parse.
Example C26_nonvacuous :
  carries (reply [1; 2; 3; 4; 5; 6; 7; 8; 9; 10; 11; 12; 13; 14; 15; 16] 0) [1; 2; 3; 4; 5; 6; 7; 8; 9; 10; 11; 12; 13; 14; 15; 16].
Proof. apply reply_carries; [|unfold is_byte; lia|cbn; lia]. vm_compute. repeat constructor; discriminate. Qed.

(** C27: dispatch. Bit 6 of the control byte is the direction (set: from the master). *)
Theorem C27_dispatch :
  forall f p fd, carries f p -> is_byte (control f) ->
  let from_slave := (control f / 64) mod 2 = 0 in
  (~ from_slave -> mbus_frame_data_parse f fd = Ok (-1, fd)) /\
  (from_slave -> ctrl_info f = 0x70 ->
     mbus_frame_data_parse f fd = Ok (0, mkFD (d_var fd) (d_fix fd) DT_ERROR (hd 0 p))) /\
  (from_slave -> ctrl_info f = 0x73 -> p <> [] ->
     mbus_frame_data_parse f fd
     = let* (r, x) := mbus_data_fixed_parse f (d_fix fd) in Ok (r, mkFD (d_var fd) x DT_FIXED (d_error fd))) /\
  (from_slave -> ctrl_info f = 0x72 -> p <> [] ->
     mbus_frame_data_parse f fd
     = let* (r, v) := mbus_data_variable_parse f (d_var fd) in Ok (r, mkFD v (d_fix fd) DT_VARIABLE (d_error fd))) /\
  (from_slave -> ctrl_info f = 0x72 \/ ctrl_info f = 0x73 -> p = [] -> mbus_frame_data_parse f fd = Ok (-1, fd)) /\
  (ctrl_info f <> 0x70 -> ctrl_info f <> 0x72 -> ctrl_info f <> 0x73 -> mbus_frame_data_parse f fd = Ok (-1, fd)).
Proof.
  intros f p fd (HL & HB & Hs & Hf & Hle) Hc from_slave. subst from_slave.
  unfold mbus_frame_data_parse. rewrite PCodec.land_40 by assumption.
  assert (Ed : (64 * ((control f / 64) mod 2) =? 0) = ((control f / 64) mod 2 =? 0)).
  { destruct (Z.eqb_spec ((control f / 64) mod 2) 0); lia. }
  rewrite Ed, Hs. unfold DATA_LEN in *.
  repeat split.
  - intros N. destruct (Z.eqb_spec ((control f / 64) mod 2) 0); [contradiction|reflexivity].
  - intros -> ->. cbn [Z.eqb Pos.eqb]. destruct p as [|b p]; [reflexivity|].
    destruct (Z.gtb_spec (Z.of_nat (length (b :: p))) 0) as [_|H]; [|cbn [length] in H; lia].
    rewrite PBase.rd_ok by lia. cbn [bind hd]. destruct (fdata f); cbn in *; congruence.
  - intros -> -> Hp. destruct p as [|b p]; [congruence|]. cbn [Z.eqb Pos.eqb length]. 
    destruct (Z.eqb_spec (Z.of_nat (S (length p))) 0); [lia|reflexivity].
  - intros -> -> Hp. destruct p as [|b p]; [congruence|]. cbn [Z.eqb Pos.eqb length].
    destruct (Z.eqb_spec (Z.of_nat (S (length p))) 0); [lia|reflexivity].
  - intros -> [-> | ->] ->; reflexivity.
  - intros N1 N2 N3. destruct ((control f / 64) mod 2 =? 0); [|reflexivity].
    destruct (Z.eqb_spec (ctrl_info f) 0x70); [contradiction|].
    destruct (Z.eqb_spec (ctrl_info f) 0x73); [contradiction|].
    destruct (Z.eqb_spec (ctrl_info f) 0x72); [contradiction|reflexivity].
Qed.
Print Assumptions C27_dispatch.
Example C27_nonvacuous :
  (control (reply (ex_header ++ [0x01; 0x13; 5]) 0) / 64) mod 2 = 0 /\
  exists v, mbus_frame_data_parse (reply (ex_header ++ [0x01; 0x13; 5]) 0) (mkFD (mkVar [] [] 0 0) (mkFix [] 0 0 0 0 [] []) 0 0)
  = Ok (0, mkFD (mkVar ex_header [v] 1 0) (mkFix [] 0 0 0 0 [] []) DT_VARIABLE 0).
Proof. split; [reflexivity|]. exists (obj (mkA 1 [] 0x13 [] [] [5])). vm_compute. reflexivity. Qed.

(** C49: data length of every DIF byte. *)
Theorem C49_dif_datalength :
  forall dif, is_byte dif -> mbus_dif_datalength_lookup dif = Z.of_nat (dif_size dif).
Proof. exact difsize_ok. Qed.
Print Assumptions C49_dif_datalength.
Example C49_nonvacuous : mbus_dif_datalength_lookup 0xCE = 6 /\ mbus_dif_datalength_lookup 0x05 = 4.
Proof. vm_compute. auto. Qed.

(** C50: re-packing reproduces the payload if it has no fillers, no plain-text units and no 0F/1F block. *)
Theorem C50_repack_variable_partial :
  forall f p fd0 fd, carries f p -> d_type fd = DT_VARIABLE ->
  mbus_data_variable_parse f fd0 = Ok (0, d_var fd) ->
  forall h its, p = h ++ enc_body its None -> length h = 12%nat -> Forall wf_item its -> Forall plain_item its ->
  forall g, length (fdata g) = 252%nat ->
  exists g', mbus_frame_internal_pack g fd = Ok (0, g') /\ data_size g' = Z.of_nat (length p) /\
             firstn (length p) (fdata g') = p.
Proof. exact repack_ok. Qed.
Theorem C50_repack_fixed :
  forall f p df x fd, carries f p -> mbus_data_fixed_parse f df = Ok (0, x) -> d_type fd = DT_FIXED -> d_fix fd = x ->
  forall g, length (fdata g) = 252%nat ->
  exists g', mbus_frame_internal_pack g fd = Ok (0, g') /\ data_size g' = 16 /\ firstn 16 (fdata g') = p.
Proof. exact repack_fixed. Qed.
(** C50 is false otherwise: the text of a plain-text unit is not packed, and a VIF byte is added to a 0F block. *)
Definition repacked (p : list Z) : option (list Z) :=
  match mbus_data_variable_parse (reply p 0) (mkVar [] [] 0 0) with
  | Ok (0, dv) => match mbus_frame_internal_pack (reply [] 0) (mkFD dv (mkFix [] 0 0 0 0 [] []) DT_VARIABLE 0) with
                  | Ok (0, g) => Some (firstn (Z.to_nat (data_size g)) (fdata g)) | _ => None end
  | _ => None
  end.
Theorem C50_repack_refuted :
  repacked (ex_header ++ [0x01; 0x7C; 2; 0x68; 0x57; 5]) = Some (ex_header ++ [0x01; 0x7C; 5]) /\
  repacked (ex_header ++ [0x0F; 1; 2; 3]) = Some (ex_header ++ [0x0F; 0; 1; 2; 3]) /\
  repacked (ex_header ++ [0x2F; 0x01; 0x13; 5]) = Some (ex_header ++ [0x01; 0x13; 5]).
Proof. vm_compute. auto. Qed.
Print Assumptions C50_repack_variable_partial.
Print Assumptions C50_repack_fixed.
Print Assumptions C50_repack_refuted.
Example C50_nonvacuous :
  Forall plain_item [Data ex_rec1] /\
  repacked (ex_header ++ enc_body [Data ex_rec1] None) = Some (ex_header ++ enc_body [Data ex_rec1] None).
Proof. split; [repeat constructor|vm_compute; reflexivity]. Qed.
