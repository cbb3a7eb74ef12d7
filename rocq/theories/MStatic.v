(** Model of the storage behind the texts of mbus/mbus-protocol.c: every text function of the library answers with a
    pointer to its own [static] array, which the next call overwrites, and the XML functions build their documents out of
    those arrays in uninitialised memory. The earlier models give the texts as values; here each call reads and writes the
    arrays. No proofs here. *)
From Coq Require Import String.
From Coq Require Import List.
From Verif Require Import CBase CStr MFrame MCodec MVar MText MXml MUnit MXmlN MSecond.

(** The [static] arrays of mbus-protocol.c: 899 m_str, 919 product_name, 1402 fixed_medium, 1513 fixed_unit, 1785
    variable_medium_lookup, 1981 unit_prefix, 2091 vif_unit_lookup, 2419 error_lookup, 2511 vib_unit_lookup_fb, 2762
    vib_unit_lookup_fd, 3081 vib_unit_lookup, 3148 record_decode, 3422 record_unit, 3440 record_value, 3530
    record_function, 3569 fixed_function, 4629 variable_header_xml, 4667 variable_record_xml, 5186
    get_secondary_address. *)
Inductive slot :=
| S_maker | S_product | S_fixed_medium | S_fixed_unit | S_medium | S_prefix | S_vif | S_error | S_fb | S_fd | S_vib
| S_decode | S_unit | S_value | S_function | S_fixed_function | S_header | S_record | S_address.
Definition slot_dec (a b : slot) : {a = b} + {a <> b}. Proof. decide equality. Defined.

(** Their sizes, at the same lines. *)
Definition size (s : slot) : nat :=
  match s with
  | S_maker => 4
  | S_product => 128
  | S_fixed_medium | S_fixed_unit | S_medium | S_prefix | S_vif | S_error | S_fb | S_fd | S_vib => 256
  | S_decode | S_value => 768
  | S_unit | S_function | S_fixed_function => 128
  | S_header | S_record => 8 * 1024
  | S_address => 32
  end%nat.

(** Memory: the contents of the arrays, and what uninitialised storage (locals, malloc, realloc) will be found to
    contain, byte after byte. *)
Record smem := mkS { buf : slot -> list Z; dirt : nat -> Z }.
Definition set_buf (m : smem) (s : slot) (b : list Z) : smem :=
  mkS (fun x => if slot_dec x s then b else buf m x) (dirt m).
(** [n] bytes of storage that nobody has written. *)
Definition fresh (m : smem) (n : nat) : list Z * smem :=
  (map (dirt m) (seq 0 n), mkS (buf m) (fun k => dirt m (n + k)%nat)).
(** At program start the arrays are zero (C: static storage). *)
Definition loaded (d : nat -> Z) : smem := mkS (fun s => repeat 0 (size s)) d.

(** What the functions return: NULL, a string literal, or one of the arrays. *)
Inductive ptr := Null | Lit (t : list Z) | At (s : slot).

(** The C string in an array: undefined if there is no terminator. *)
Definition c_str (b : list Z) : res (list Z) := if existsb (Z.eqb 0) b then Ok (c_text b) else UB.
(** Reading through a returned pointer ([%s]). *)
Definition text_at (m : smem) (p : ptr) : res (list Z) :=
  match p with Null => UB | Lit t => Ok t | At s => c_str (buf m s) end.

(** [snprintf(buff, sizeof(buff), ...)]. *)
Definition sprint (m : smem) (s : slot) (t : list Z) : res smem :=
  let* b := snprintf_s (buf m s) 0 (size s) t in Ok (set_buf m s b).
(** [snprintf(&buff[n], sizeof(buff) - n, ...)] and the new n; beyond the array the unsigned difference wraps. *)
Definition add (m : smem) (s : slot) (n : nat) (t : list Z) : res (smem * nat) :=
  if (size s <? n)%nat then UB
  else let* b := snprintf_s (buf m s) n (size s - n) t in Ok (set_buf m s b, (n + List.length t)%nat).

(** ** The text functions *)
(** mbus-protocol.c 897-914 [mbus_decode_manufacturer]: the array also holds the argument bytes for the decoding. *)
Definition s_maker (m : smem) (byte1 byte2 : Z) : res (smem * ptr) :=
  let b := buf m S_maker in
  let* b := wr b 0 byte1 in let* b := wr b 1 byte2 in
  let* (_, id) := mbus_data_int_decode b 2 in
  let* b := wr b 0 (Z.land (Z.shiftr id 10) 0x1F + 64) in
  let* b := wr b 1 (Z.land (Z.shiftr id 5) 0x1F + 64) in
  let* b := wr b 2 (Z.land id 0x1F + 64) in
  let* b := wr b 3 0 in
  Ok (set_buf m S_maker b, At S_maker).

(** mbus-protocol.c 916-1366 [mbus_data_product_name]: memset (922), then strcpy of the name found (none: nothing, the same
    as copying the empty string into the cleared array). *)
Definition s_product (m : smem) (h : list Z) : res (smem * ptr) :=
  let* m0 := rd h 4 in let* m1 := rd h 5 in let* version := rd h 6 in let* medium := rd h 7 in let* id3 := rd h 3 in
  let* b := put_list (repeat 0 (size S_product)) 0 (product_name (Z.shiftl m1 8 + m0) version medium id3 ++ [0]) in
  Ok (set_buf m S_product b, At S_product).

(** mbus-protocol.c 1399-1465 [mbus_data_fixed_medium] (not NULL). *)
Definition s_fixed_medium (m : smem) (x : dfix) : res (smem * ptr) :=
  let* m := sprint m S_fixed_medium (mbus_data_fixed_medium x) in Ok (m, At S_fixed_medium).
(** mbus-protocol.c 1510-1736 [mbus_data_fixed_unit]. *)
Definition s_fixed_unit (m : smem) (b : Z) : res (smem * ptr) :=
  let* m := sprint m S_fixed_unit (mbus_data_fixed_unit b) in Ok (m, At S_fixed_unit).
(** mbus-protocol.c 1782-1970 [mbus_data_variable_medium_lookup]. *)
Definition s_medium (m : smem) (b : Z) : res (smem * ptr) :=
  let* m := sprint m S_medium (mbus_data_variable_medium_lookup b) in Ok (m, At S_medium).
(** mbus-protocol.c 1978-2034 [mbus_unit_prefix]; for exponent 0 only [buff[0] = 0], the same as printing "". *)
Definition s_prefix (m : smem) (e : Z) : res (smem * ptr) :=
  let* m := sprint m S_prefix (mbus_unit_prefix e) in Ok (m, At S_prefix).
(** mbus-protocol.c 2416-2463 [mbus_data_error_lookup]. *)
Definition s_error (m : smem) (e : Z) : res (smem * ptr) :=
  let* m := sprint m S_error (mbus_data_error_lookup e) in Ok (m, At S_error).
(** mbus-protocol.c 3527-3560 [mbus_data_record_function] (not NULL). *)
Definition s_function (m : smem) (r : rec) : res (smem * ptr) :=
  let* m := sprint m S_function (mbus_data_record_function r) in Ok (m, At S_function).
(** mbus-protocol.c 3566-3577 [mbus_data_fixed_function]. *)
Definition s_fixed_function (m : smem) (status : Z) : res (smem * ptr) :=
  let* m := sprint m S_fixed_function (mbus_data_fixed_function status) in Ok (m, At S_fixed_function).

(** How a unit text is printed: at once; around the text [mbus_unit_prefix] answers; or in two pieces (2290-2325). *)
Inductive form := Plain (t : list Z) | Around (a : list Z) (e : Z) (b : list Z) | Twice (a b : list Z).
Definition s_form (m : smem) (s : slot) (f : form) : res (smem * ptr) :=
  match f with
  | Plain t => let* m := sprint m s t in Ok (m, At s)
  | Around a e b => let* (m, p) := s_prefix m e in
                    let* t := text_at m p in
                    let* m := sprint m s (a ++ t ++ b) in Ok (m, At s)
  | Twice a b => let* (m, n) := add m s 0 a in let* (m, _) := add m s n b in Ok (m, At s)
  end.

(** mbus-protocol.c 2088-2408 [mbus_vif_unit_lookup]: the [snprintf] of each case. *)
Definition vif_form (vif : Z) : form :=
  let m := Z.land vif 0x7F in
  let n7 := Z.land vif 0x07 in
  let n3 := Z.land vif 0x03 in
  if MText.between 0x00 0x07 m then Around (cstr "Energy (") (n7 - 3) (cstr "Wh)")
  else if MText.between 0x08 0x0F m then Around (cstr "Energy (") n7 (cstr "J)")
  else if MText.between 0x18 0x1F m then Around (cstr "Mass (") (n7 - 3) (cstr "kg)")
  else if MText.between 0x28 0x2F m then Around (cstr "Power (") (n7 - 3) (cstr "W)")
  else if MText.between 0x30 0x37 m then Around (cstr "Power (") n7 (cstr "J/h)")
  else if MText.between 0x10 0x17 m then Around (cstr "Volume (") (n7 - 6) (cstr " m^3)")
  else if MText.between 0x38 0x3F m then Around (cstr "Volume flow (") (n7 - 6) (cstr " m^3/h)")
  else if MText.between 0x40 0x47 m then Around (cstr "Volume flow (") (n7 - 7) (cstr " m^3/min)")
  else if MText.between 0x48 0x4F m then Around (cstr "Volume flow (") (n7 - 9) (cstr " m^3/s)")
  else if MText.between 0x50 0x57 m then Around (cstr "Mass flow (") (n7 - 3) (cstr " kg/h)")
  else if MText.between 0x58 0x5B m then Around (cstr "Flow temperature (") (n3 - 3) (cstr "deg C)")
  else if MText.between 0x5C 0x5F m then Around (cstr "Return temperature (") (n3 - 3) (cstr "deg C)")
  else if MText.between 0x68 0x6B m then Around (cstr "Pressure (") (n3 - 3) (cstr " bar)")
  else if MText.between 0x20 0x23 m || MText.between 0x24 0x27 m || MText.between 0x70 0x73 m || MText.between 0x74 0x77 m then
    Twice (if Z.land vif 0x7C =? 0x20 then cstr "On time "
           else if Z.land vif 0x7C =? 0x24 then cstr "Operating time "
           else if Z.land vif 0x7C =? 0x70 then cstr "Averaging Duration "
           else cstr "Actuality Duration ")
      (switch n3 [(0, cstr "(seconds)"); (1, cstr "(minutes)"); (2, cstr "(hours)"); (3, cstr "(days)")] [])
  else if MText.between 0x60 0x63 m then Around (cstr "Temperature Difference (") (n3 - 3) (cstr " deg C)")
  else if MText.between 0x64 0x67 m then Around (cstr "External temperature (") (n3 - 3) (cstr " deg C)")
  else Plain (mbus_vif_unit_lookup vif).
Definition s_vif (m : smem) (vif : Z) : res (smem * ptr) := s_form m S_vif (vif_form vif).

(** mbus-protocol.c 2508-2757 [mbus_vib_unit_lookup_fb] on vife[0]. *)
Definition fb_form (vife0 : Z) : form :=
  let m := Z.land vife0 0x7F in
  let n1 := Z.land 0x01 vife0 in
  let n3 := Z.land 0x03 vife0 in
  let n7 := Z.land 0x07 vife0 in
  if MText.between 0x10 0x11 m then Around (cstr "Volume (") (n1 + 2) (cstr "m3)")
  else if MText.between 0x18 0x19 m then Around (cstr "Mass (") (n1 + 2) (cstr "t)")
  else if MText.between 0x58 0x5B m then Around (cstr "Flow Temperature (") (n3 - 3) (cstr " degree F)")
  else if MText.between 0x5C 0x5F m then Around (cstr "Return Temperature (") (n3 - 3) (cstr " degree F)")
  else if MText.between 0x60 0x63 m then Around (cstr "Temperature Difference (") (n3 - 3) (cstr " degree F)")
  else if MText.between 0x64 0x67 m then Around (cstr "External Temperature (") (n3 - 3) (cstr " degree F)")
  else if MText.between 0x70 0x73 m then Around (cstr "Cold / Warm Temperature Limit (") (n3 - 3) (cstr " degree F)")
  else if MText.between 0x74 0x77 m then Around (cstr "Cold / Warm Temperature Limit (") (n3 - 3) (cstr " degree C)")
  else if MText.between 0x78 0x7F m then Around (cstr "cumul. count max power (") (n7 - 3) (cstr " W)")
  else Plain (mbus_vib_unit_lookup_fb vife0).
(** mbus-protocol.c 2759-3063 [mbus_vib_unit_lookup_fd] on vife[0]; [mbus_unit_duration_nn] and [_pp] return literals. *)
Definition fd_form (vife0 : Z) : form :=
  let m := Z.land vife0 0x7F in
  if Z.land m 0x7C =? 0x00 then Around (cstr "Credit of ") (Z.land m 0x03 - 3) (cstr " of the nominal local legal currency units")
  else if Z.land m 0x7C =? 0x04 then Around (cstr "Debit of ") (Z.land m 0x03 - 3) (cstr " of the nominal local legal currency units")
  else if Z.land m 0x70 =? 0x40 then Around [] (Z.land m 0x0F - 9) (cstr " V")
  else if Z.land m 0x70 =? 0x50 then Around [] (Z.land m 0x0F - 12) (cstr " A")
  else Plain (mbus_vib_unit_lookup_fd vife0).

(** mbus-protocol.c 3078-3120 [mbus_vib_unit_lookup] (not NULL). *)
Definition s_vib (m : smem) (r : rec) : res (smem * ptr) :=
  let* v0 := rd (r_vife r) 0 in
  if r_vif r =? 0xFB then
    if (r_nvife r =? 0)%nat then Ok (m, Lit (cstr "Missing VIF extension")) else s_form m S_fb (fb_form v0)
  else if r_vif r =? 0xFD then
    if (r_nvife r =? 0)%nat then Ok (m, Lit (cstr "Missing VIF extension")) else s_form m S_fd (fd_form v0)
  else if r_vif r =? 0x7C then
    let* t := c_str (r_custom r) in let* m := sprint m S_vib t in Ok (m, At S_vib)
  else if (r_vif r =? 0xFC) && (Z.land v0 0x78 =? 0x70) then
    let* (m, p) := s_prefix m (Z.land v0 0x07 - 6) in
    let* a := text_at m p in
    let* t := c_str (r_custom r) in
    let* m := sprint m S_vib (a ++ cstr " " ++ t) in Ok (m, At S_vib)
  else s_vif m (r_vif r).

(** mbus-protocol.c 3145-3415 [mbus_data_record_decode] (not NULL): everything but text and blocks is one [snprintf] of
    the text of [MText.mbus_data_record_decode]; text and blocks are decoded straight into the array (3375-3400). *)
Definition s_decode (m : smem) (r : rec) : res (smem * ptr) :=
  let k := Z.land (r_dif r) 0x0F in
  let* _ := rd (r_vife r) 0 in
  if k =? 0x0F then
    let* b := mbus_data_bin_decode (buf m S_decode) (r_data r) (r_len r) (size S_decode) in
    Ok (set_buf m S_decode b, At S_decode)
  else if k =? 0x0D then
    if (r_len r =? 0)%nat then UB
    else
      let* d0 := rd (r_data r) 0 in
      if d0 <=? 0xBF then
        let* b := mbus_data_str_decode (buf m S_decode) (skipn 1 (r_data r)) (r_len r - 1) in
        Ok (set_buf m S_decode b, At S_decode)
      else
        let* b := mbus_data_bin_decode (buf m S_decode) (skipn 1 (r_data r)) (r_len r - 1) (size S_decode) in
        Ok (set_buf m S_decode b, At S_decode)
  else
    let* t := mbus_data_record_decode r in
    let* m := sprint m S_decode t in Ok (m, At S_decode).

(** mbus-protocol.c 3419-3432 [mbus_data_record_unit], 3437-3450 [mbus_data_record_value] (not NULL). *)
Definition s_unit (m : smem) (r : rec) : res (smem * ptr) :=
  let* (m, p) := s_vib m r in
  let* t := text_at m p in
  let* m := sprint m S_unit t in Ok (m, At S_unit).
Definition s_value (m : smem) (r : rec) : res (smem * ptr) :=
  let* (m, p) := s_decode m r in
  let* t := text_at m p in
  let* m := sprint m S_value t in Ok (m, At S_value).

(** mbus-protocol.c 5183-5225 [mbus_frame_get_secondary_address] (not NULL, allocation succeeds). *)
Definition s_address (m : smem) (f : frame) : res (smem * ptr) :=
  let* a := mbus_frame_get_secondary_address f in
  match a with
  | None => Ok (m, Null)
  | Some t => let* m := sprint m S_address t in Ok (m, At S_address)
  end.

(** ** XML *)
(** [mbus_str_xml_encode(str_encoded, <text function>, sizeof(str_encoded))] on the local array [loc]. *)
Definition encode_at (m : smem) (loc : list Z) (p : ptr) : res (list Z) :=
  let* t := text_at m p in
  let* (_, b) := mbus_str_xml_encode loc (t ++ [0]) (List.length loc) in Ok b.

(** mbus-protocol.c 4626-4659 [mbus_data_variable_header_xml] (not NULL). *)
Definition s_header (m : smem) (h : list Z) : res (smem * ptr) :=
  let (loc, m) := fresh m 768 in
  let* (m, n) := add m S_header 0 (cstr "    <SlaveInformation>" ++ nl) in
  let* id := mbus_data_bcd_decode_hex h 4 in
  let* (m, n) := add m S_header n (cstr "        <Id>" ++ fmt_X id ++ cstr "</Id>" ++ nl) in
  let* m0 := rd h 4 in let* m1 := rd h 5 in
  let* (m, p) := s_maker m m0 m1 in
  let* man := text_at m p in
  let* (m, n) := add m S_header n (cstr "        <Manufacturer>" ++ man ++ cstr "</Manufacturer>" ++ nl) in
  let* version := rd h 6 in
  let* (m, n) := add m S_header n (cstr "        <Version>" ++ fmt_d version ++ cstr "</Version>" ++ nl) in
  let* (m, p) := s_product m h in
  let* loc := encode_at m loc p in
  let* product := c_str loc in
  let* (m, n) := add m S_header n (cstr "        <ProductName>" ++ product ++ cstr "</ProductName>" ++ nl) in
  let* medium := rd h 7 in
  let* (m, p) := s_medium m medium in
  let* loc := encode_at m loc p in
  let* med := c_str loc in
  let* (m, n) := add m S_header n (cstr "        <Medium>" ++ med ++ cstr "</Medium>" ++ nl) in
  let* acc := rd h 8 in
  let* (m, n) := add m S_header n (cstr "        <AccessNumber>" ++ fmt_d acc ++ cstr "</AccessNumber>" ++ nl) in
  let* status := rd h 9 in
  let* (m, n) := add m S_header n (cstr "        <Status>" ++ fmt_X2 status ++ cstr "</Status>" ++ nl) in
  let* s0 := rd h 10 in let* s1 := rd h 11 in
  let* (m, n) := add m S_header n (cstr "        <Signature>" ++ fmt_X2 s1 ++ fmt_X2 s0 ++ cstr "</Signature>" ++ nl) in
  let* (m, n) := add m S_header n (cstr "    </SlaveInformation>" ++ nl ++ nl) in
  Ok (m, At S_header).

(** mbus-protocol.c 4664-4738 [mbus_data_variable_record_xml] (not NULL); [stamp] is the formatted receive time. *)
Definition s_record (m : smem) (r : rec) (record_cnt frame_cnt : Z) (stamp : option (list Z)) : res (smem * ptr) :=
  let (loc, m) := fresh m 768 in
  let* (m, n) := add m S_record 0
    (if 0 <=? frame_cnt
     then cstr "    <DataRecord id=""" ++ fmt_d record_cnt ++ cstr """ frame=""" ++ fmt_d frame_cnt ++ cstr """>" ++ nl
     else cstr "    <DataRecord id=""" ++ fmt_d record_cnt ++ cstr """>" ++ nl) in
  let* (m, n, loc) :=
    (if r_dif r =? 0x0F then
       let* (m, n) := add m S_record n (cstr "        <Function>Manufacturer specific</Function>" ++ nl) in Ok (m, n, loc)
     else if r_dif r =? 0x1F then
       let* (m, n) := add m S_record n (cstr "        <Function>More records follow</Function>" ++ nl) in Ok (m, n, loc)
     else
       let* (m, p) := s_function m r in
       let* loc := encode_at m loc p in
       let* func := c_str loc in
       let* (m, n) := add m S_record n (cstr "        <Function>" ++ func ++ cstr "</Function>" ++ nl) in
       let* storage := mbus_data_record_storage_number r in
       let* (m, n) := add m S_record n (cstr "        <StorageNumber>" ++ fmt_d storage ++ cstr "</StorageNumber>" ++ nl) in
       let* tariff := mbus_data_record_tariff r in
       let* (m, n) :=
         (if 0 <=? tariff then
            let* (m, n) := add m S_record n (cstr "        <Tariff>" ++ fmt_d tariff ++ cstr "</Tariff>" ++ nl) in
            let* d := mbus_data_record_device r in
            add m S_record n (cstr "        <Device>" ++ fmt_d d ++ cstr "</Device>" ++ nl)
          else Ok (m, n)) in
       let* (m, p) := s_unit m r in
       let* loc := encode_at m loc p in
       let* unit := c_str loc in
       let* (m, n) := add m S_record n (cstr "        <Unit>" ++ unit ++ cstr "</Unit>" ++ nl) in
       Ok (m, n, loc)) in
  let* (m, p) := s_value m r in
  let* loc := encode_at m loc p in
  let* value := c_str loc in
  let* (m, n) := add m S_record n (cstr "        <Value>" ++ value ++ cstr "</Value>" ++ nl) in
  let* (m, n) :=
    (match stamp with
     | Some t => add m S_record n (cstr "        <Timestamp>" ++ t ++ cstr "</Timestamp>" ++ nl)
     | None => Ok (m, n)
     end) in
  let* (m, _) := add m S_record n (cstr "    </DataRecord>" ++ nl ++ nl) in
  Ok (m, At S_record).

(** A document buffer in unwritten memory (4752, 4806, 4880, 4973); [doc_append] as in [MXml]. *)
Definition s_new (m : smem) : doc * smem := let (b, m) := fresh m (8 * 1024) in (mkDoc b 0, m).
(** mbus-protocol.c 4759-4773 etc.: realloc to twice the size, the new half unwritten. *)
Definition s_grow (d : doc) (m : smem) : doc * smem :=
  let n := List.length (b_buf d) in
  if (b_len d <=? n)%nat && (n - b_len d <? 1024)%nat
  then let (b, m) := fresh m n in (mkDoc (b_buf d ++ b) (b_len d), m)
  else (d, m).
(** The finished document: the C string in the buffer. *)
Definition s_done (d : doc) : res (list Z) := c_str (b_buf d).

(** mbus-protocol.c 4873-4898 [mbus_data_error_xml]. *)
Definition s_error_xml (m : smem) (e : Z) : res (smem * list Z) :=
  let (loc, m) := fresh m 256 in
  let (d, m) := s_new m in
  let* d := doc_append d XML_PI in
  let* d := doc_append d XML_OPEN in
  let* d := doc_append d (cstr "    <SlaveInformation>" ++ nl) in
  let* (m, p) := s_error m e in
  let* loc := encode_at m loc p in
  let* t := c_str loc in
  let* d := doc_append d (cstr "        <Error>" ++ t ++ cstr "</Error>" ++ nl) in
  let* d := doc_append d (cstr "    </SlaveInformation>" ++ nl ++ nl) in
  let* d := doc_append d XML_CLOSE in
  let* t := s_done d in Ok (m, t).

(** mbus-protocol.c 4822-4841 and 4843-4862: one counter of the fixed structure. *)
Definition s_counter (m : smem) (loc : list Z) (d : doc) (id : string) (status type : Z) (val : list Z)
  : res (smem * list Z * doc) :=
  let* d := doc_append d (cstr "    <DataRecord id=""" ++ cstr id ++ cstr """>" ++ nl) in
  let* (m, p) := s_fixed_function m status in
  let* loc := encode_at m loc p in
  let* func := c_str loc in
  let* d := doc_append d (cstr "        <Function>" ++ func ++ cstr "</Function>" ++ nl) in
  let* (m, p) := s_fixed_unit m type in
  let* loc := encode_at m loc p in
  let* unit := c_str loc in
  let* d := doc_append d (cstr "        <Unit>" ++ unit ++ cstr "</Unit>" ++ nl) in
  let* v := (if Z.land status 0x80 =? 0x00
             then let* n := mbus_data_bcd_decode_hex val 4 in Ok (fmt_X n)
             else let* (_, n) := mbus_data_int_decode val 4 in Ok (fmt_d n)) in
  let* d := doc_append d (cstr "        <Value>" ++ v ++ cstr "</Value>" ++ nl) in
  let* d := doc_append d (cstr "    </DataRecord>" ++ nl ++ nl) in
  Ok (m, loc, d).
(** mbus-protocol.c 4795-4868 [mbus_data_fixed_xml] (not NULL, allocation succeeds). *)
Definition s_fixed_xml (m : smem) (x : dfix) : res (smem * list Z) :=
  let (loc, m) := fresh m 256 in
  let (d, m) := s_new m in
  let* d := doc_append d XML_PI in
  let* d := doc_append d XML_OPEN in
  let* d := doc_append d (cstr "    <SlaveInformation>" ++ nl) in
  let* id := mbus_data_bcd_decode_hex (x_id x) 4 in
  let* d := doc_append d (cstr "        <Id>" ++ fmt_X id ++ cstr "</Id>" ++ nl) in
  let* (m, p) := s_fixed_medium m x in
  let* loc := encode_at m loc p in
  let* med := c_str loc in
  let* d := doc_append d (cstr "        <Medium>" ++ med ++ cstr "</Medium>" ++ nl) in
  let* d := doc_append d (cstr "        <AccessNumber>" ++ fmt_d (x_tx_cnt x) ++ cstr "</AccessNumber>" ++ nl) in
  let* d := doc_append d (cstr "        <Status>" ++ fmt_X2 (x_status x) ++ cstr "</Status>" ++ nl) in
  let* d := doc_append d (cstr "    </SlaveInformation>" ++ nl ++ nl) in
  let* (m, loc, d) := s_counter m loc d "0" (x_status x) (x_type1 x) (x_val1 x) in
  let* (m, loc, d) := s_counter m loc d "1" (x_status x) (x_type2 x) (x_val2 x) in
  let* d := doc_append d XML_CLOSE in
  let* t := s_done d in Ok (m, t).

(** mbus-protocol.c 4752-4763: beginning of the document of a variable structure. *)
Definition s_start (m : smem) (h : list Z) : res (smem * doc) :=
  let (d, m) := s_new m in
  let* d := doc_append d XML_PI in
  let* d := doc_append d XML_OPEN in
  let* (m, p) := s_header m h in
  let* t := text_at m p in
  let* d := doc_append d t in Ok (m, d).

Section Doc.
  Variable stamp : Z -> option (list Z).

  (** mbus-protocol.c 4765-4783 / 5000-5018 / 5039-5057: the record loop. *)
  Fixpoint s_records (m : smem) (d : doc) (rs : list rec) (i frame_cnt : Z) : res (smem * doc * Z) :=
    match rs with
    | [] => Ok (m, d, i)
    | r :: rs' =>
        let (d, m) := s_grow d m in
        let* (m, p) := s_record m r i frame_cnt (stamp i) in
        let* t := text_at m p in
        let* d := doc_append d t in
        s_records m d rs' (i + 1) frame_cnt
    end.
  (** mbus-protocol.c 4743-4790 [mbus_data_variable_xml] (not NULL, allocation succeeds). *)
  Definition s_variable_xml (m : smem) (dv : dvar) : res (smem * list Z) :=
    let* (m, d) := s_start m (v_header dv) in
    let* (m, d, _) := s_records m d (v_records dv) 0 (-1) in
    let* d := doc_append d XML_CLOSE in
    let* t := s_done d in Ok (m, t).
  (** mbus-protocol.c 4903-4925 [mbus_frame_data_xml] (not NULL); None = NULL. *)
  Definition s_data_xml (m : smem) (fd : fdat) : res (smem * option (list Z)) :=
    if d_type fd =? DT_ERROR then let* (m, t) := s_error_xml m (d_error fd) in Ok (m, Some t)
    else if d_type fd =? DT_FIXED then let* (m, t) := s_fixed_xml m (d_fix fd) in Ok (m, Some t)
    else if d_type fd =? DT_VARIABLE then let* (m, t) := s_variable_xml m (d_var fd) in Ok (m, Some t)
    else Ok (m, None).

  (** mbus-protocol.c 5027-5067 and 4931-5073 [mbus_frame_xml], as [MXml.xml_chain] and [MXml.mbus_frame_xml]. *)
  Fixpoint s_chain (m : smem) (fs : list frame) (fd : fdat) (h : heap) (p : option nat) (d : doc) (rcnt fcnt : Z)
    : res (smem * xml_out) :=
    match fs with
    | [] => let* d := doc_append d XML_CLOSE in let* t := s_done d in Ok (m, mkOut (Some t) h false)
    | f :: fs' =>
        let* (r, fd, h, p) := parse_heap f fd h p in
        if r =? -1 then Ok (m, mkOut None h true)
        else
          let* rs := deref h p in
          let* (m, d, rcnt) := s_records m d rs rcnt fcnt in
          let* h := free_list h p in
          s_chain m fs' fd h p d rcnt (fcnt + 1)
    end.
  Definition s_frame_xml (m : smem) (f : frame) (next : list frame) : res (smem * xml_out) :=
    let* (r, fd, h, p) := parse_heap f fd_zero [] None in
    if r =? -1 then Ok (m, mkOut None h false)
    else if d_type fd =? DT_ERROR then let* (m, t) := s_error_xml m (d_error fd) in Ok (m, mkOut (Some t) h false)
    else if d_type fd =? DT_FIXED then let* (m, t) := s_fixed_xml m (d_fix fd) in Ok (m, mkOut (Some t) h false)
    else if d_type fd =? DT_VARIABLE then
      let fcnt := match next with [] => -1 | _ => 0 end in
      let* (m, d) := s_start m (v_header (d_var fd)) in
      let* rs := deref h p in
      let* (m, d, rcnt) := s_records m d rs 0 fcnt in
      let* h := free_list h p in
      s_chain m next fd h p d rcnt (fcnt + 1)
    else Ok (m, mkOut None h false).
End Doc.

(** ** Normalised records *)
(** mbus-protocol-aux.c 1229-1270 [mbus_parse_fixed_record]: the function text is copied (strdup, 1243) before the rest. *)
Definition s_parse_fixed (m : smem) (status medium_unit : Z) (data : list Z) : res (smem * option nrec) :=
  let* (m, p) := s_fixed_function m status in
  let* t := text_at m p in
  let* o := mbus_parse_fixed_record status medium_unit data in
  Ok (m, match o with
         | Some n => Some (mkN (n_value n) (n_unit n) t (n_quantity n) (n_device n) (n_tariff n) (n_storage n))
         | None => None
         end).
(** mbus-protocol-aux.c 1275-1385 [mbus_parse_variable_record]: likewise (1342), literals for 0F and 1F (1302-1311). The
    storage of decoded texts is zero before it is written, as in [MUnit]. *)
Definition s_parse_variable (m : smem) (r : rec) : res (smem * option nrec * bool) :=
  if (r_dif r =? 0x0F) || (r_dif r =? 0x1F) then
    let* (o, l) := mbus_parse_variable_record r in Ok (m, o, l)
  else
    let* (m, p) := s_function m r in
    let* t := text_at m p in
    let* (o, l) := mbus_parse_variable_record r in
    Ok (m, match o with
           | Some n => Some (mkN (n_value n) (n_unit n) t (n_quantity n) (n_device n) (n_tariff n) (n_storage n))
           | None => None
           end, l).

(** [mbus_str_xml_encode] of a pointer of the record, which may be NULL (mbus-protocol.c 4573-4577). *)
Definition encode_opt_at (loc : list Z) (o : option (list Z)) : res (list Z) :=
  match o with
  | None => wr loc 0 0
  | Some s => let* (_, b) := mbus_str_xml_encode loc (s ++ [0]) (List.length loc) in Ok b
  end.

(** mbus-protocol-aux.c 1436-1462: the lines of a normalised record. *)
Definition s_norm_lines (loc : list Z) (d : doc) (n : nrec) : res (list Z * doc) :=
  let* loc := encode_opt_at loc (Some (n_function n)) in
  let* func := c_str loc in
  let* d := doc_append d (cstr "        <Function>" ++ func ++ cstr "</Function>" ++ nl) in
  let* d := doc_append d (cstr "        <StorageNumber>" ++ fmt_d (n_storage n) ++ cstr "</StorageNumber>" ++ nl) in
  let* d := (if 0 <=? n_tariff n then
               let* d := doc_append d (cstr "        <Tariff>" ++ fmt_d (n_tariff n) ++ cstr "</Tariff>" ++ nl) in
               doc_append d (cstr "        <Device>" ++ fmt_d (n_device n) ++ cstr "</Device>" ++ nl)
             else Ok d) in
  let* loc := encode_opt_at loc (n_unit n) in
  let* unit := c_str loc in
  let* d := doc_append d (cstr "        <Unit>" ++ unit ++ cstr "</Unit>" ++ nl) in
  let* loc := encode_opt_at loc (n_quantity n) in
  let* quantity := c_str loc in
  let* d := doc_append d (cstr "        <Quantity>" ++ quantity ++ cstr "</Quantity>" ++ nl) in
  let* (loc, value) :=
    (match n_value n with
     | VNum x => Ok (loc, print_f x)
     | VStr s _ => let* loc := encode_opt_at loc (Some s) in let* t := c_str loc in Ok (loc, t)
     end) in
  let* d := doc_append d (cstr "        <Value>" ++ value ++ cstr "</Value>" ++ nl) in
  Ok (loc, d).
(** mbus-protocol-aux.c 1413-1471: the loop over the records. *)
Fixpoint s_norm_records (m : smem) (loc : list Z) (d : doc) (rs : list rec) (i : Z) (lost : nat) : res (smem * doc * nat) :=
  match rs with
  | [] => Ok (m, d, lost)
  | r :: rs' =>
      let* (m, o, l) := s_parse_variable m r in
      let (d, m) := s_grow d m in
      let* d := doc_append d (cstr "    <DataRecord id=""" ++ fmt_d i ++ cstr """>" ++ nl) in
      let* (loc, d) := (match o with Some n => s_norm_lines loc d n | None => Ok (loc, d) end) in
      let* d := doc_append d (cstr "    </DataRecord>" ++ nl ++ nl) in
      s_norm_records m loc d rs' (i + 1) (if l : bool then S lost else lost)
  end.
(** mbus-protocol-aux.c 1390-1480 [mbus_data_variable_xml_normalized] (not NULL, allocation succeeds); str_encoded is
    initialised here (1395). *)
Definition s_variable_norm (m : smem) (dv : dvar) : res (smem * (list Z * nat)) :=
  let* (m, d) := s_start m (v_header dv) in
  let* (m, d, lost) := s_norm_records m (repeat 0 768) d (v_records dv) 0 0 in
  let* d := doc_append d XML_CLOSE in
  let* t := s_done d in Ok (m, (t, lost)).
(** mbus-protocol-aux.c 1485-1501 [mbus_frame_data_xml_normalized] (not NULL); None = NULL. *)
Definition s_data_norm (m : smem) (fd : fdat) : res (smem * (option (list Z) * nat)) :=
  if d_type fd =? DT_FIXED then let* (m, t) := s_fixed_xml m (d_fix fd) in Ok (m, (Some t, 0%nat))
  else if d_type fd =? DT_VARIABLE then
    let* (m, (t, lost)) := s_variable_norm m (d_var fd) in Ok (m, (Some t, lost))
  else Ok (m, (None, 0%nat)).

(** ** Calls of a program *)
(** One call of the interface with its arguments; the receive times of the records of a document are given as texts. *)
Inductive ask :=
| A_decode_manufacturer (byte1 byte2 : Z) | A_product_name (header : list Z) | A_variable_medium (medium : Z)
| A_fixed_medium (x : dfix) | A_fixed_unit (unit : Z) | A_fixed_function (status : Z) | A_unit_prefix (e : Z)
| A_vif_unit (vif : Z) | A_vib_unit (r : rec) | A_error (e : Z) | A_record_unit (r : rec) | A_record_value (r : rec)
| A_record_function (r : rec) | A_header_xml (header : list Z) | A_secondary_address (f : frame)
| A_data_xml (stamp : Z -> option (list Z)) (fd : fdat) | A_frame_xml (stamp : Z -> option (list Z)) (f : frame) (next : list frame)
| A_data_xml_normalized (fd : fdat) | A_parse_fixed_record (status unit : Z) (data : list Z) | A_parse_variable_record (r : rec).

(** What is found when an answer is read: a text or NULL; the outcome of [mbus_frame_xml]; a document and the number of
    texts lost; a normalised record or NULL and whether a text was lost. *)
Inductive reading :=
| Text (o : option (list Z)) | Frames (o : xml_out) | Normed (o : option (list Z)) (lost : nat) | Normal (o : option nrec) (lost : bool).
(** An answer: a pointer into the library's storage, or storage that now belongs to the caller. *)
Inductive answer := Words (p : ptr) | Own (r : reading).
Definition read (m : smem) (a : answer) : res reading :=
  match a with
  | Words Null => Ok (Text None)
  | Words p => let* t := text_at m p in Ok (Text (Some t))
  | Own r => Ok r
  end.

Definition words (x : res (smem * ptr)) : res (smem * answer) := let* (m, p) := x in Ok (m, Words p).
Definition call (m : smem) (x : ask) : res (smem * answer) :=
  match x with
  | A_decode_manufacturer b1 b2 => words (s_maker m b1 b2)
  | A_product_name h => words (s_product m h)
  | A_variable_medium b => words (s_medium m b)
  | A_fixed_medium x => words (s_fixed_medium m x)
  | A_fixed_unit b => words (s_fixed_unit m b)
  | A_fixed_function s => words (s_fixed_function m s)
  | A_unit_prefix e => words (s_prefix m e)
  | A_vif_unit v => words (s_vif m v)
  | A_vib_unit r => words (s_vib m r)
  | A_error e => words (s_error m e)
  | A_record_unit r => words (s_unit m r)
  | A_record_value r => words (s_value m r)
  | A_record_function r => words (s_function m r)
  | A_header_xml h => words (s_header m h)
  | A_secondary_address f => words (s_address m f)
  | A_data_xml stamp fd => let* (m, o) := s_data_xml stamp m fd in Ok (m, Own (Text o))
  | A_frame_xml stamp f next => let* (m, o) := s_frame_xml stamp m f next in Ok (m, Own (Frames o))
  | A_data_xml_normalized fd => let* (m, (o, l)) := s_data_norm m fd in Ok (m, Own (Normed o l))
  | A_parse_fixed_record st u data => let* (m, o) := s_parse_fixed m st u data in Ok (m, Own (Normal o false))
  | A_parse_variable_record r => let* (m, o, l) := s_parse_variable m r in Ok (m, Own (Normal o l))
  end.
(** A program that makes these calls one after the other. *)
Fixpoint calls (m : smem) (xs : list ask) : res smem :=
  match xs with
  | [] => Ok m
  | x :: xs' => let* (m, _) := call m x in calls m xs'
  end.
