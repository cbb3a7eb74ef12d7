(** Model of address validation and secondary addresses: mbus/mbus-protocol.c 5183-5325. No proofs here. *)
From Verif Require Import CBase CStr MFrame MCodec MVar MText MXml.

(** mbus-protocol.c 5299-5303 [mbus_is_primary_address]. *)
Definition mbus_is_primary_address (v : Z) : bool := (0 <=? v) && (v <=? 0xFF).

(** C library: [isxdigit] (characters above 127 are no digits). *)
Definition isxdigit (c : Z) : bool :=
  ((48 <=? c) && (c <=? 57)) || ((65 <=? c) && (c <=? 70)) || ((97 <=? c) && (c <=? 102)).

(** mbus-protocol.c 5308-5325 [mbus_is_secondary_address]; the string without its terminator, not NULL. *)
Definition mbus_is_secondary_address (s : list Z) : bool := (length s =? 16)%nat && forallb isxdigit s.

(** C library: [strtol(s, NULL, 16)] on a string of hexadecimal digits. *)
Definition hex_digit_value (c : Z) : Z := if c <=? 57 then c - 48 else if c <=? 70 then c - 55 else c - 87.
Definition strtol16 (s : list Z) : Z := fold_left (fun v c => 16 * v + hex_digit_value c) s 0.

(** mbus-protocol.c 5268-5291: the loop over the identification digits; j and k as in the code, [d] is data[0..3]. *)
Fixpoint id_loop (s : list Z) (d : list Z) (j : nat) (k : Z) : res (list Z) :=
  match s with
  | [] => Ok d
  | c :: s' =>
      let nib := if (c =? 70) || (c =? 102) then 0x0F else Z.land 0x0F (c - 48) in
      let* old := rd d j in
      let* d := wr d j (u8 (Z.lor old (Z.shiftl nib (4 * k)))) in
      let k := k - 1 in
      if k <? 0 then id_loop s' d (j - 1) 1 else id_loop s' d j k
  end.

(** mbus-protocol.c 5229-5294 [mbus_frame_select_secondary_pack] (pointers not NULL). The parts of the string are
    taken out with strncpy (5249, 5253, 5257). *)
Definition mbus_frame_select_secondary_pack (f : frame) (s : list Z) : res (Z * frame) :=
  if negb (mbus_is_secondary_address s) then Ok (-1, f)
  else
    let f := set_control f (Z.lor (Z.lor 0x53 0x40) 0x20) in
    let f := set_address f 0xFD in
    let f := set_ci f 0x52 in
    let d := fdata f in
    let* d := wr d 7 (Z.land (strtol16 (firstn 2 (skipn 14 s))) 0xFF) in
    let* d := wr d 6 (Z.land (strtol16 (firstn 2 (skipn 12 s))) 0xFF) in
    let v := strtol16 (firstn 4 (skipn 8 s)) in
    let* d := wr d 4 (Z.land (Z.shiftr v 8) 0xFF) in
    let* d := wr d 5 (Z.land v 0xFF) in
    let* d := put_list d 0 [0; 0; 0; 0] in
    let* d := id_loop (firstn 8 s) d 3 1 in
    Ok (0, set_data f d 8).

(** mbus-protocol.c 5183-5224 [mbus_frame_get_secondary_address] (frame not NULL, allocation succeeds): None = NULL.
    mbus_frame_data_new (5080-5095) gives zeroed storage; the record list is freed before returning (5102-5113). *)
Definition mbus_frame_get_secondary_address (f : frame) : res (option (list Z)) :=
  if negb (ctrl_info f =? 0x72) then Ok None
  else
    let* (r, fd) := mbus_frame_data_parse f fd_zero in
    if r =? -1 then Ok None
    else
      let h := v_header (d_var fd) in
      let* id := mbus_data_bcd_decode_hex h 4 in
      let* m0 := rd h 4 in let* m1 := rd h 5 in let* version := rd h 6 in let* medium := rd h 7 in
      Ok (Some (zpad 8 (fmt_X id) ++ fmt_X2 m0 ++ fmt_X2 m1 ++ fmt_X2 version ++ fmt_X2 medium)).
