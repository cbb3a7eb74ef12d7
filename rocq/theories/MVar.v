(** Model of the payload parsers of mbus/mbus-protocol.c. No proofs here. *)
From Verif Require Import CBase MFrame MCodec.

(** mbus-protocol.h 138-178: a data record with its arrays (dife[10], vife[10], custom_vif[128],
    data[234]) and counters. Simplified: timestamp omitted; the next pointer is the list structure. *)
Record rec := mkRec {
  r_dif : Z; r_dife : list Z; r_ndife : nat;
  r_vif : Z; r_vife : list Z; r_nvife : nat;
  r_custom : list Z; r_data : list Z; r_len : nat }.

(** mbus-protocol.c 5120-5134 [mbus_data_record_new] (successful allocation): all zero. *)
Definition rec_new : rec := mkRec 0 (repeat 0 10) 0 0 (repeat 0 10) 0 (repeat 0 128) (repeat 0 234) 0.

(** mbus-protocol.h 201-222: header (12 bytes in order), record list, nrecords, more_records_follow.
    The members data, data_len, mdh, mfg_data, mfg_data_len are never used by the parser. *)
Record dvar := mkVar { v_header : list Z; v_records : list rec; v_nrecords : Z; v_more : Z }.

(** mbus-protocol.c 2037-2081 [mbus_dif_datalength_lookup]. *)
Definition mbus_dif_datalength_lookup (dif : Z) : Z :=
  let m := Z.land dif 0x0F in
  if m =? 0x0 then 0 else if m =? 0x1 then 1 else if m =? 0x2 then 2 else if m =? 0x3 then 3
  else if m =? 0x4 then 4 else if m =? 0x5 then 4 else if m =? 0x6 then 6 else if m =? 0x7 then 8
  else if m =? 0x8 then 0 else if m =? 0x9 then 1 else if m =? 0xA then 2 else if m =? 0xB then 3
  else if m =? 0xC then 4 else if m =? 0xD then 0 else if m =? 0xE then 6 else if m =? 0xF then 8
  else 0.

(** Either the value to go on with, or an early [return -1] (the record object is freed). *)
Inductive step (A : Type) : Type := Go (a : A) | Fail.
Arguments Go {A} a.
Arguments Fail {A}.
Definition sbind {A B} (x : res (step A)) (k : A -> res (step B)) : res (step B) :=
  bind x (fun s => match s with Go a => k a | Fail => Ok Fail end).
Notation "'let!' x ':=' e 'in' k" := (sbind e (fun x => k))
  (at level 200, x pattern, e at level 100, k at level 200, right associativity) : res_scope.

(** mbus-protocol.c 3875-3892 (DIFE) and 3938-3955 (VIFE): the common shape of the two extension
    loops: [while ((i < n) && (d[i] & 0x80)) { if (cnt >= 10) fail; arr[cnt] = d[i+1]; cnt++; i++; }].
    Result: array, count, i. Out of fuel = UB (excluded by theorem). *)
Fixpoint ext_loop (fuel : nat) (d : list Z) (n i : nat) (arr : list Z) (cnt : nat)
  : res (step (list Z * nat * nat)) :=
  match fuel with
  | O => UB
  | S fuel' =>
      if (i <? n)%nat then
        let* b := rd d i in
        if negb (Z.land b 0x80 =? 0) then
          if (10 <=? cnt)%nat then Ok Fail
          else
            let* e := rd d (i + 1) in
            let* arr' := wr arr cnt e in
            ext_loop fuel' d n (i + 1) arr' (cnt + 1)
        else Ok (Go (arr, cnt, i))
      else Ok (Go (arr, cnt, i))
  end.

(** mbus-protocol.c 3966-3984: length of variable-length data from the LVAR byte; [l0] is the
    length so far (kept for reserved codes). *)
Definition lvar_len (b l0 : Z) : Z :=
  (if b <=? 0xBF then b
   else if (0xC0 <=? b) && (b <=? 0xC9) then (b - 0xC0) * 2
   else if (0xD0 <=? b) && (b <=? 0xD9) then (b - 0xD0) * 2
   else if (0xE0 <=? b) && (b <=? 0xEF) then b - 0xE0
   else if (0xF0 <=? b) && (b <=? 0xF4) then (b - 0xEC) * 4
   else if b =? 0xF5 then 48
   else if b =? 0xF6 then 64
   else l0) + 1.

(** mbus-protocol.c 3904-3928: VIF and plain-text VIF; result: vif, custom_vif, i. *)
Definition parse_vif (d : list Z) (n i : nat) (custom : list Z) : res (step (Z * list Z * nat)) :=
  let* vif := rd d i in
  let i := (i + 1)%nat in
  if Z.land vif 0x7F =? 0x7C then
    let* len := rd d i in
    let i := (i + 1)%nat in
    if 128 <? len then Ok Fail
    else if (n <? i + Z.to_nat len)%nat then Ok Fail
    else
      let* custom' := mbus_data_str_decode custom (skipn i d) (Z.to_nat len) in
      Ok (Go (vif, custom', (i + Z.to_nat len)%nat))
  else Ok (Go (vif, custom, i)).

(** mbus-protocol.c 3930-3957: VIFE; result: vife array, nvife, i. *)
Definition parse_vife (d : list Z) (n i : nat) (vif : Z) (arr : list Z) : res (step (list Z * nat * nat)) :=
  if negb (Z.land vif 0x80 =? 0) then
    let* v0 := rd d i in
    let* arr := wr arr 0 v0 in
    let! (arr, cnt, i) := ext_loop (S (length d)) d n i arr 1 in
    Ok (Go (arr, cnt, (i + 1)%nat))
  else Ok (Go (arr, 0%nat, i)).

(** mbus-protocol.c 3869-3998: one ordinary record starting at [i]; result: record and new [i]. *)
Definition parse_record (d : list Z) (n i : nat) : res (step (rec * nat)) :=
  let r := rec_new in
  let* dif := rd d i in
  let len0 := mbus_dif_datalength_lookup dif in
  let! (dife, ndife, i) := ext_loop (S (length d)) d n i (r_dife r) 0 in
  let i := (i + 1)%nat in
  if (n <? i)%nat then Ok Fail
  else
    let! (vif, custom, i) := parse_vif d n i (r_custom r) in
    let! (vife, nvife, i) := parse_vife d n i vif (r_vife r) in
    if (n <? i)%nat then Ok Fail
    else
      let* len := (if Z.land dif 0x0F =? 0x0D
                   then let* b := rd d i in Ok (lvar_len b len0) else Ok len0) in
      if (n <? i + Z.to_nat len)%nat then Ok Fail
      else
        let* data := copy_loop (Z.to_nat len) (r_data r) 0 d i in
        Ok (Go (mkRec dif dife ndife vif vife nvife custom data (Z.to_nat len), (i + Z.to_nat len)%nat)).

(** mbus-protocol.c 3849-3861: manufacturer-specific data (0F) or more records follow (1F): the rest
    of the payload is copied. *)
Definition parse_rest (d : list Z) (n i : nat) (dif : Z) : res (rec * nat) :=
  let r := rec_new in
  let i := (i + 1)%nat in
  let len := (n - i)%nat in
  let* data := copy_loop len (r_data r) 0 d i in
  Ok (mkRec dif (r_dife r) 0 0 (r_vife r) 0 (r_custom r) data len, (i + len)%nat).

(** mbus-protocol.c 3825-4002: the record loop. Allocation failure (return -2) is modelled in MMem. *)
Fixpoint records_loop (fuel : nat) (d : list Z) (n i : nat) (dv : dvar) : res (Z * dvar) :=
  match fuel with
  | O => UB
  | S fuel' =>
      if (i <? n)%nat then
        let* b := rd d i in
        if Z.land b 0xFF =? 0x2F then records_loop fuel' d n (i + 1) dv
        else if (b =? 0x0F) || (b =? 0x1F) then
          let more := if Z.land b 0xFF =? 0x1F then 1 else v_more dv in
          let* (r, i') := parse_rest d n i b in
          records_loop fuel' d n i' (mkVar (v_header dv) (v_records dv ++ [r]) (v_nrecords dv + 1) more)
        else
          let* s := parse_record d n i in
          match s with
          | Fail => Ok (-1, dv)
          | Go (r, i') =>
              records_loop fuel' d n i' (mkVar (v_header dv) (v_records dv ++ [r]) (v_nrecords dv + 1) (v_more dv))
          end
      else Ok (0, dv)
  end.

(** mbus-protocol.c 3790-4008 [mbus_data_variable_parse]; result: return code and the data object. *)
Definition mbus_data_variable_parse (f : frame) (dv : dvar) : res (Z * dvar) :=
  let n := Z.to_nat (data_size f) in
  if (n <? 12)%nat then Ok (-1, mkVar (v_header dv) (v_records dv) 0 0)
  else
    let* h := copy_loop 12 (repeat 0 12) 0 (fdata f) 0 in
    records_loop (S n) (fdata f) n 12 (mkVar h [] 0 0).

(** mbus-protocol.h 239-250: fixed data (id_bcd, tx_cnt, status, cnt1_type, cnt2_type, cnt1_val, cnt2_val). *)
Record dfix := mkFix {
  x_id : list Z; x_tx_cnt : Z; x_status : Z; x_type1 : Z; x_type2 : Z; x_val1 : list Z; x_val2 : list Z }.

(** mbus-protocol.c 3751-3784 [mbus_data_fixed_parse]. *)
Definition mbus_data_fixed_parse (f : frame) (df : dfix) : res (Z * dfix) :=
  if negb (data_size f =? 16) then Ok (-1, df)
  else
    let d := fdata f in
    let* a0 := rd d 0 in let* a1 := rd d 1 in let* a2 := rd d 2 in let* a3 := rd d 3 in
    let* tx := rd d 4 in let* st := rd d 5 in let* t1 := rd d 6 in let* t2 := rd d 7 in
    let* b0 := rd d 8 in let* b1 := rd d 9 in let* b2 := rd d 10 in let* b3 := rd d 11 in
    let* c0 := rd d 12 in let* c1 := rd d 13 in let* c2 := rd d 14 in let* c3 := rd d 15 in
    Ok (0, mkFix [a0; a1; a2; a3] tx st t1 t2 [b0; b1; b2; b3] [c0; c1; c2; c3]).

(** mbus-protocol.h 260-269 [mbus_frame_data]: variable part, fixed part, type, error. *)
Record fdat := mkFD { d_var : dvar; d_fix : dfix; d_type : Z; d_error : Z }.
Definition DT_FIXED := 1.
Definition DT_VARIABLE := 2.
Definition DT_ERROR := 3.

(** mbus-protocol.c 4014-4085 [mbus_frame_data_parse]. *)
Definition mbus_frame_data_parse (f : frame) (fd : fdat) : res (Z * fdat) :=
  if Z.land (control f) 0x40 =? 0 then
    if ctrl_info f =? 0x70 then
      if data_size f >? 0 then
        let* e := rd (fdata f) 0 in Ok (0, mkFD (d_var fd) (d_fix fd) DT_ERROR e)
      else Ok (0, mkFD (d_var fd) (d_fix fd) DT_ERROR 0)
    else if ctrl_info f =? 0x73 then
      if data_size f =? 0 then Ok (-1, fd)
      else
        let* (r, df) := mbus_data_fixed_parse f (d_fix fd) in
        Ok (r, mkFD (d_var fd) df DT_FIXED (d_error fd))
    else if ctrl_info f =? 0x72 then
      if data_size f =? 0 then Ok (-1, fd)
      else
        let* (r, dv) := mbus_data_variable_parse f (d_var fd) in
        Ok (r, mkFD dv (d_fix fd) DT_VARIABLE (d_error fd))
    else Ok (-1, fd)
  else Ok (-1, fd).

(** C [x << k] on a non-negative int: undefined if k >= 32 or the result overflows. *)
Definition int_shl (x k : Z) : res Z := if 32 <=? k then UB else int_op (x * 2 ^ k).

(** mbus-protocol.c 3465-3469: the loop of [mbus_data_record_storage_number]. *)
Fixpoint storage_loop (k : nat) (j : nat) (dife : list Z) (bit_index result : Z) : res Z :=
  match k with
  | O => Ok result
  | S k' =>
      let* b := rd dife j in
      let* s := int_shl (Z.land b 0x0F) bit_index in
      storage_loop k' (S j) dife (bit_index + 4) (Z.lor result s)
  end.
(** mbus-protocol.c 3455-3476 [mbus_data_record_storage_number]. *)
Definition mbus_data_record_storage_number (r : rec) : res Z :=
  storage_loop (r_ndife r) 0 (r_dife r) 1 (Z.shiftr (Z.land (r_dif r) 0x40) 6).

(** mbus-protocol.c 3481-3499 [mbus_data_record_tariff]. *)
Fixpoint tariff_loop (k : nat) (j : nat) (dife : list Z) (bit_index result : Z) : res Z :=
  match k with
  | O => Ok result
  | S k' =>
      let* b := rd dife j in
      let* s := int_shl (Z.shiftr (Z.land b 0x30) 4) bit_index in
      tariff_loop k' (S j) dife (bit_index + 2) (Z.lor result s)
  end.
Definition mbus_data_record_tariff (r : rec) : res Z :=
  if (0 <? r_ndife r)%nat then tariff_loop (r_ndife r) 0 (r_dife r) 0 0 else Ok (-1).

(** mbus-protocol.c 3504-3522 [mbus_data_record_device]. *)
Fixpoint device_loop (k : nat) (j : nat) (dife : list Z) (bit_index result : Z) : res Z :=
  match k with
  | O => Ok result
  | S k' =>
      let* b := rd dife j in
      let* s := int_shl (Z.shiftr (Z.land b 0x40) 6) bit_index in
      device_loop k' (S j) dife (bit_index + 1) (Z.lor result s)
  end.
Definition mbus_data_record_device (r : rec) : res Z :=
  if (0 <? r_ndife r)%nat then device_loop (r_ndife r) 0 (r_dife r) 0 0 else Ok (-1).

(** mbus-protocol.c 4245-4290: packing one record into the payload array. *)
Definition pack_record (d : list Z) (n : nat) (r : rec) : res (list Z * nat) :=
  let* d := wr d n (r_dif r) in
  let* d := copy_loop (r_ndife r) d (n + 1) (r_dife r) 0 in
  let n := (n + 1 + r_ndife r)%nat in
  let* d := wr d n (r_vif r) in
  let* d := copy_loop (r_nvife r) d (n + 1) (r_vife r) 0 in
  let n := (n + 1 + r_nvife r)%nat in
  let* d := copy_loop (r_len r) d n (r_data r) 0 in
  Ok (d, (n + r_len r)%nat).
Fixpoint pack_records (d : list Z) (n : nat) (rs : list rec) : res (list Z * nat) :=
  match rs with
  | [] => Ok (d, n)
  | r :: rs' => let* (d, n) := pack_record d n r in pack_records d n rs'
  end.
(** mbus-protocol.c 4196-4296 [mbus_frame_internal_pack]; data_size is reset first, also for an unknown type. *)
Definition mbus_frame_internal_pack (f : frame) (fd : fdat) : res (Z * frame) :=
  if d_type fd =? DT_ERROR then
    let* d := wr (fdata f) 0 (u8 (d_error fd)) in Ok (0, set_data f d 1)
  else if d_type fd =? DT_FIXED then
    let x := d_fix fd in
    let* d := put_list (fdata f) 0 (x_id x ++ [x_tx_cnt x; x_status x; x_type1 x; x_type2 x] ++ x_val1 x ++ x_val2 x) in
    Ok (0, set_data f d 16)
  else if d_type fd =? DT_VARIABLE then
    let* d := put_list (fdata f) 0 (v_header (d_var fd)) in
    let* (d, n) := pack_records d 12 (v_records (d_var fd)) in
    Ok (0, set_data f d (Z.of_nat n))
  else Ok (-2, set_data f (fdata f) 0).
