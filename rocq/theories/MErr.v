(** Model of the error text of mbus/mbus-protocol.c: the buffer behind [mbus_error_str], and the parsers with the
    texts they leave there. The parsers without the texts are in MFrame, MVar and MSecond; PErr proves that both
    agree. No proofs here. *)
From Coq Require Import String.
From Coq Require Import List.
From Verif Require Import CBase CStr MFrame MCodec MVar MText MXml MSecond.

(** mbus-protocol.c 19 [static char error_str[512]] (zero at program start) and every
    [snprintf(error_str, sizeof(error_str), ...)]: [m] is the formatted text. *)
Definition ERR_SIZE : nat := 512.
Definition err_start : list Z := repeat 0 ERR_SIZE.
Definition say (e m : list Z) : res (list Z) := snprintf_s e 0 ERR_SIZE m.

(** mbus-protocol.c 81-85 [mbus_error_str]: a pointer to the buffer. *)
Definition mbus_error_str (e : list Z) : list Z := e.
(** mbus-protocol.c 87-94 [mbus_error_str_set]; None = NULL, otherwise the string without its terminator. *)
Definition mbus_error_str_set (e : list Z) (message : option (list Z)) : res (list Z) :=
  match message with Some m => say e m | None => Ok e end.
(** mbus-protocol.c 96-100 [mbus_error_reset]. *)
Definition mbus_error_reset (e : list Z) : res (list Z) := say e (cstr "no errors").

(** C library: [%.2x] of a non-negative value below 2^32 (unsigned char, or an int converted to unsigned). *)
Definition fmt_p2x (n : Z) : list Z := fmt_x2 (n mod 4294967296).

(** mbus-protocol.c 421-436: stop byte and checksum tests of [mbus_frame_verify]. *)
Definition verify_tail_e (e : list Z) (f : frame) : res (Z * list Z) :=
  if negb (stop f =? 0x16) then let* e := say e (cstr "No frame stop") in Ok (-1, e)
  else let* c := calc_checksum f in
       if negb (checksum f =? c)
       then let* e := say e (cstr "Invalid checksum (0x" ++ fmt_p2x (checksum f) ++ cstr " != 0x" ++ fmt_p2x c ++ cstr ")") in
            Ok (-1, e)
       else Ok (0, e).

(** mbus-protocol.c 345-444 [mbus_frame_verify]; None = NULL. *)
Definition mbus_frame_verify_e (e : list Z) (fr : option frame) : res (Z * list Z) :=
  match fr with
  | None => let* e := say e (cstr "Got null pointer to frame.") in Ok (-1, e)
  | Some f =>
      if ftype f =? T_ACK then Ok (if start1 f =? 0xE5 then 1 else 0, e)
      else if ftype f =? T_SHORT then
        if negb (start1 f =? 0x10) then let* e := say e (cstr "No frame start") in Ok (-1, e)
        else if negb (ctrl_short_ok (control f))
        then let* e := say e (cstr "Unknown Control Code 0x" ++ fmt_p2x (control f)) in Ok (-1, e)
        else verify_tail_e e f
      else if (ftype f =? T_CONTROL) || (ftype f =? T_LONG) then
        if negb (start1 f =? 0x68) || negb (start2 f =? 0x68) then let* e := say e (cstr "No frame start") in Ok (-1, e)
        else if negb (ctrl_long_ok (control f))
        then let* e := say e (cstr "Unknown Control Code 0x" ++ fmt_p2x (control f)) in Ok (-1, e)
        else if negb (length1 f =? length2 f) then let* e := say e (cstr "Frame length 1 != 2") in Ok (-1, e)
        else if negb (length1 f =? calc_length f) then let* e := say e (cstr "Frame length 1 != calc length") in Ok (-1, e)
        else verify_tail_e e f
      else let* e := say e (cstr "Unknown frame type 0x" ++ fmt_p2x (ftype f)) in Ok (-1, e)
  end.

(** mbus-protocol.c 3741-3744: the refusal of NULL arguments and empty input. *)
Definition parse_null (e : list Z) : res (list Z) := say e (cstr "Got null pointer to frame, data or zero data_size.").

(** mbus-protocol.c 3589-3745 [mbus_parse]; None = NULL, [data] is the buffer of exactly [data_size] bytes. *)
Definition mbus_parse_e (e : list Z) (fr : option frame) (dat : option (list Z)) : res (Z * option frame * list Z) :=
  match fr, dat with
  | Some f, Some data =>
      let n := Z.of_nat (List.length data) in
      if n >? 0 then
        let f0 := set_next f 0 in
        let* b0 := rd data 0 in
        if b0 =? 0xE5 then
          Ok (0, Some (mkF b0 (length1 f0) (length2 f0) (start2 f0) (control f0) (address f0) (ctrl_info f0)
                   (checksum f0) (stop f0) (fdata f0) (data_size f0) T_ACK (fnext f0)), e)
        else if b0 =? 0x10 then
          if n <? 5 then Ok (5 - n, Some f0, e)
          else if negb (n =? 5) then let* e := say e (cstr "Too much data in frame.") in Ok (-2, Some f0, e)
          else
            let* b1 := rd data 1 in
            let* b2 := rd data 2 in
            let* b3 := rd data 3 in
            let* b4 := rd data 4 in
            let f1 := mkF b0 (length1 f0) (length2 f0) (start2 f0) b1 b2 (ctrl_info f0)
                          b3 b4 (fdata f0) (data_size f0) T_SHORT (fnext f0) in
            let* (v, e) := mbus_frame_verify_e e (Some f1) in
            if negb (v =? 0) then Ok (-3, Some f1, e) else Ok (0, Some f1, e)
        else if b0 =? 0x68 then
          if n <? 3 then Ok (3 - n, Some f0, e)
          else
            let* b1 := rd data 1 in
            let* b2 := rd data 2 in
            let f1 := mkF b0 b1 b2 (start2 f0) (control f0) (address f0) (ctrl_info f0)
                          (checksum f0) (stop f0) (fdata f0) (data_size f0) (ftype f0) (fnext f0) in
            if b1 <? 3 then let* e := say e (cstr "Invalid M-Bus frame length.") in Ok (-2, Some f1, e)
            else if negb (b1 =? b2) then let* e := say e (cstr "Invalid M-Bus frame length.") in Ok (-2, Some f1, e)
            else
              let len := b1 in
              if n <? 6 + len then Ok (6 + len - n, Some f1, e)
              else if n >? 6 + len then let* e := say e (cstr "Too much data in frame.") in Ok (-2, Some f1, e)
              else
                let* b3 := rd data 3 in
                let* b4 := rd data 4 in
                let* b5 := rd data 5 in
                let* b6 := rd data 6 in
                let ds := len - 3 in
                let* d' := copy_loop (Z.to_nat ds) (fdata f1) 0 data 7 in
                let* ck := rd data (List.length data - 2) in
                let* st := rd data (List.length data - 1) in
                let ty := if ds =? 0 then T_CONTROL else T_LONG in
                let f2 := mkF b0 b1 b2 b3 b4 b5 b6 ck st d' ds ty (fnext f1) in
                let* (v, e) := mbus_frame_verify_e e (Some f2) in
                if negb (v =? 0) then Ok (-3, Some f2, e) else Ok (0, Some f2, e)
        else let* e := say e (cstr "Invalid M-Bus frame start.") in Ok (-4, Some f0, e)
      else let* e := parse_null e in Ok (-1, Some f, e)
  | _, _ => let* e := parse_null e in Ok (-1, fr, e)
  end.

(** Inside [mbus_data_variable_parse]: either the value to go on with, or [snprintf(error_str, ..., m); return -1]
    after freeing the record object. *)
Inductive stepE (A : Type) : Type := GoE (a : A) | FailE (m : list Z).
Arguments GoE {A} a.
Arguments FailE {A} m.
Definition ebind {A B} (x : res (stepE A)) (k : A -> res (stepE B)) : res (stepE B) :=
  bind x (fun s => match s with GoE a => k a | FailE m => Ok (FailE m) end).
Notation "'let?' x ':=' e 'in' k" := (ebind e (fun x => k))
  (at level 200, x pattern, e at level 100, k at level 200, right associativity) : res_scope.

(** mbus-protocol.c 3873-3892 and 3938-3955: the extension loops as [MVar.ext_loop]; [m] is the text for too many
    extensions (3883, 3945). *)
Fixpoint ext_loop_e (m : list Z) (fuel : nat) (d : list Z) (n i : nat) (arr : list Z) (cnt : nat)
  : res (stepE (list Z * nat * nat)) :=
  match fuel with
  | O => UB
  | S fuel' =>
      if (i <? n)%nat then
        let* b := rd d i in
        if negb (Z.land b 0x80 =? 0) then
          if (10 <=? cnt)%nat then Ok (FailE m)
          else
            let* x := rd d (i + 1) in
            let* arr' := wr arr cnt x in
            ext_loop_e m fuel' d n (i + 1) arr' (cnt + 1)
        else Ok (GoE (arr, cnt, i))
      else Ok (GoE (arr, cnt, i))
  end.

(** mbus-protocol.c 3904-3928. *)
Definition parse_vif_e (d : list Z) (n i : nat) (custom : list Z) : res (stepE (Z * list Z * nat)) :=
  let* vif := rd d i in
  let i := (i + 1)%nat in
  if Z.land vif 0x7F =? 0x7C then
    let* len := rd d i in
    let i := (i + 1)%nat in
    if 128 <? len then Ok (FailE (cstr "Too long variable length VIF."))
    else if (n <? i + Z.to_nat len)%nat then Ok (FailE (cstr "Premature end of record at variable length VIF."))
    else
      let* custom' := mbus_data_str_decode custom (skipn i d) (Z.to_nat len) in
      Ok (GoE (vif, custom', (i + Z.to_nat len)%nat))
  else Ok (GoE (vif, custom, i)).

(** mbus-protocol.c 3930-3957. *)
Definition parse_vife_e (d : list Z) (n i : nat) (vif : Z) (arr : list Z) : res (stepE (list Z * nat * nat)) :=
  if negb (Z.land vif 0x80 =? 0) then
    let* v0 := rd d i in
    let* arr := wr arr 0 v0 in
    let? (arr, cnt, i) := ext_loop_e (cstr "Too many VIFE.") (S (List.length d)) d n i arr 1 in
    Ok (GoE (arr, cnt, (i + 1)%nat))
  else Ok (GoE (arr, 0%nat, i)).

(** mbus-protocol.c 3869-3998: one ordinary record. *)
Definition parse_record_e (d : list Z) (n i : nat) : res (stepE (rec * nat)) :=
  let r := rec_new in
  let* dif := rd d i in
  let len0 := mbus_dif_datalength_lookup dif in
  let? (dife, ndife, i) := ext_loop_e (cstr "Too many DIFE.") (S (List.length d)) d n i (r_dife r) 0 in
  let i := (i + 1)%nat in
  if (n <? i)%nat then Ok (FailE (cstr "Premature end of record at DIF."))
  else
    let? (vif, custom, i) := parse_vif_e d n i (r_custom r) in
    let? (vife, nvife, i) := parse_vife_e d n i vif (r_vife r) in
    if (n <? i)%nat then Ok (FailE (cstr "Premature end of record at VIF."))
    else
      let* len := (if Z.land dif 0x0F =? 0x0D
                   then let* b := rd d i in Ok (lvar_len b len0) else Ok len0) in
      if (n <? i + Z.to_nat len)%nat then Ok (FailE (cstr "Premature end of record at data."))
      else
        let* data := copy_loop (Z.to_nat len) (r_data r) 0 d i in
        Ok (GoE (mkRec dif dife ndife vif vife nvife custom data (Z.to_nat len), (i + Z.to_nat len)%nat)).

(** mbus-protocol.c 3825-4002: the record loop (allocations succeed). *)
Fixpoint records_loop_e (fuel : nat) (e d : list Z) (n i : nat) (dv : dvar) : res (Z * dvar * list Z) :=
  match fuel with
  | O => UB
  | S fuel' =>
      if (i <? n)%nat then
        let* b := rd d i in
        if Z.land b 0xFF =? 0x2F then records_loop_e fuel' e d n (i + 1) dv
        else if (b =? 0x0F) || (b =? 0x1F) then
          let more := if Z.land b 0xFF =? 0x1F then 1 else v_more dv in
          let* (r, i') := parse_rest d n i b in
          records_loop_e fuel' e d n i' (mkVar (v_header dv) (v_records dv ++ [r]) (v_nrecords dv + 1) more)
        else
          let* s := parse_record_e d n i in
          match s with
          | FailE m => let* e := say e m in Ok (-1, dv, e)
          | GoE (r, i') =>
              records_loop_e fuel' e d n i' (mkVar (v_header dv) (v_records dv ++ [r]) (v_nrecords dv + 1) (v_more dv))
          end
      else Ok (0, dv, e)
  end.

(** mbus-protocol.c 3790-4008 [mbus_data_variable_parse] (pointers not NULL; with NULL it returns -1 and no text). *)
Definition mbus_data_variable_parse_e (e : list Z) (f : frame) (dv : dvar) : res (Z * dvar * list Z) :=
  let n := Z.to_nat (data_size f) in
  if (n <? 12)%nat
  then let* e := say e (cstr "Variable header too short.") in Ok (-1, mkVar (v_header dv) (v_records dv) 0 0, e)
  else
    let* h := copy_loop 12 (repeat 0 12) 0 (fdata f) 0 in
    records_loop_e (S n) e (fdata f) n 12 (mkVar h [] 0 0).

(** mbus-protocol.c 3751-3784 [mbus_data_fixed_parse] (pointers not NULL; with NULL it returns -1 and no text). *)
Definition mbus_data_fixed_parse_e (e : list Z) (f : frame) (df : dfix) : res (Z * dfix * list Z) :=
  if negb (data_size f =? 16) then let* e := say e (cstr "Invalid length for fixed data.") in Ok (-1, df, e)
  else let* (r, df) := mbus_data_fixed_parse f df in Ok (r, df, e).

(** mbus-protocol.c 4014-4085 [mbus_frame_data_parse]; None = NULL. *)
Definition mbus_frame_data_parse_e (e : list Z) (fr : option frame) (fdo : option fdat) : res (Z * option fdat * list Z) :=
  match fr with
  | None => let* e := say e (cstr "Got null pointer to frame.") in Ok (-1, fdo, e)
  | Some f =>
      match fdo with
      | None => let* e := say e (cstr "Got null pointer to data.") in Ok (-1, None, e)
      | Some fd =>
          if Z.land (control f) 0x40 =? 0 then
            if ctrl_info f =? 0x70 then
              if data_size f >? 0 then
                let* b := rd (fdata f) 0 in Ok (0, Some (mkFD (d_var fd) (d_fix fd) DT_ERROR b), e)
              else Ok (0, Some (mkFD (d_var fd) (d_fix fd) DT_ERROR 0), e)
            else if ctrl_info f =? 0x73 then
              if data_size f =? 0 then let* e := say e (cstr "Got zero data_size.") in Ok (-1, fdo, e)
              else
                let* (r, df, e) := mbus_data_fixed_parse_e e f (d_fix fd) in
                Ok (r, Some (mkFD (d_var fd) df DT_FIXED (d_error fd)), e)
            else if ctrl_info f =? 0x72 then
              if data_size f =? 0 then let* e := say e (cstr "Got zero data_size.") in Ok (-1, fdo, e)
              else
                let* (r, dv, e) := mbus_data_variable_parse_e e f (d_var fd) in
                Ok (r, Some (mkFD dv (d_fix fd) DT_VARIABLE (d_error fd)), e)
            else let* e := say e (cstr "Unknown control information 0x" ++ fmt_p2x (ctrl_info f)) in Ok (-1, fdo, e)
          else let* e := say e (cstr "Wrong direction in frame (master to slave)") in Ok (-1, fdo, e)
      end
  end.

(** mbus-protocol.c 5183-5224 [mbus_frame_get_secondary_address] (frame not NULL, allocation succeeds): None = NULL. *)
Definition mbus_frame_get_secondary_address_e (e : list Z) (f : frame) : res (option (list Z) * list Z) :=
  if negb (ctrl_info f =? 0x72)
  then let* e := say e (cstr "Non-variable data response (can't get secondary address from response).") in Ok (None, e)
  else
    let* (r, fdo, e) := mbus_frame_data_parse_e e (Some f) (Some fd_zero) in
    match fdo with
    | None => UB
    | Some fd =>
        if r =? -1 then Ok (None, e)
        else
          let h := v_header (d_var fd) in
          let* id := mbus_data_bcd_decode_hex h 4 in
          let* m0 := rd h 4 in let* m1 := rd h 5 in let* version := rd h 6 in let* medium := rd h 7 in
          Ok (Some (zpad 8 (fmt_X id) ++ fmt_X2 m0 ++ fmt_X2 m1 ++ fmt_X2 version ++ fmt_X2 medium), e)
    end.

(** mbus-protocol.c 5229-5294 [mbus_frame_select_secondary_pack] (GCC: __PRETTY_FUNCTION__ is the function's name in C). *)
Definition mbus_frame_select_secondary_pack_e (e : list Z) (fr : option frame) (ad : option (list Z))
  : res (Z * option frame * list Z) :=
  match fr, ad with
  | Some f, Some s =>
      if negb (mbus_is_secondary_address s)
      then let* e := say e (cstr "mbus_frame_select_secondary_pack" ++ cstr ": address is invalid.") in Ok (-1, fr, e)
      else let* (r, f) := mbus_frame_select_secondary_pack f s in Ok (r, Some f, e)
  | _, _ =>
      let* e := say e (cstr "mbus_frame_select_secondary_pack" ++ cstr ": frame or address arguments are NULL.") in Ok (-1, fr, e)
  end.

(** mbus-protocol.c 4930-5075 [mbus_frame_xml] with its texts (4949, 5032), as in MXml: the rest of the function
    writes no error text. *)
Section Xml.
  Variable stamp : Z -> option (list Z).

  Definition parse_heap_e (e : list Z) (f : frame) (fd : fdat) (h : heap) (p : option nat)
    : res (Z * fdat * heap * option nat * list Z) :=
    let* (r, fdo, e) := mbus_frame_data_parse_e e (Some f) (Some fd) in
    match fdo with
    | None => UB
    | Some fd' =>
        if assigns_record f then
          match v_records (d_var fd') with
          | [] => Ok (r, fd', h, None, e)
          | rs => Ok (r, fd', h ++ [Some rs], Some (List.length h), e)
          end
        else Ok (r, fd', h, p, e)
    end.

  Fixpoint xml_chain_e (fs : list frame) (fd : fdat) (h : heap) (p : option nat) (d : doc) (rcnt fcnt : Z) (e : list Z)
    : res (xml_out * list Z) :=
    match fs with
    | [] => let* d := doc_append d XML_CLOSE in Ok (mkOut (Some (c_text (b_buf d))) h false, e)
    | f :: fs' =>
        let* (r, fd, h, p, e) := parse_heap_e e f fd h p in
        if r =? -1
        then let* e := mbus_error_str_set e (Some (cstr "M-bus variable data parse error.")) in Ok (mkOut None h true, e)
        else
          let* rs := deref h p in
          let* (d, rcnt) := doc_records stamp d rs rcnt fcnt in
          let* h := free_list h p in
          xml_chain_e fs' fd h p d rcnt (fcnt + 1) e
    end.

  Definition mbus_frame_xml_e (e : list Z) (f : frame) (next : list frame) : res (xml_out * list Z) :=
    let* (r, fd, h, p, e) := parse_heap_e e f fd_zero [] None in
    if r =? -1
    then let* e := mbus_error_str_set e (Some (cstr "M-bus data parse error.")) in Ok (mkOut None h false, e)
    else if d_type fd =? DT_ERROR then let* t := mbus_data_error_xml (d_error fd) in Ok (mkOut (Some t) h false, e)
    else if d_type fd =? DT_FIXED then let* t := mbus_data_fixed_xml (d_fix fd) in Ok (mkOut (Some t) h false, e)
    else if d_type fd =? DT_VARIABLE then
      let fcnt := match next with [] => -1 | _ => 0 end in
      let* d := doc_start (v_header (d_var fd)) in
      let* rs := deref h p in
      let* (d, rcnt) := doc_records stamp d rs 0 fcnt in
      let* h := free_list h p in
      xml_chain_e next fd h p d rcnt (fcnt + 1) e
    else Ok (mkOut None h false, e).
End Xml.
