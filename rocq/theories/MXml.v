(** Model of the XML generation of mbus/mbus-protocol.c: escaping, growing document buffer, and the
    life of the record lists in [mbus_frame_xml]. No proofs here. *)
From Coq Require Import String Ascii.
From Verif Require Import CBase CStr MFrame MCodec MVar MText.

(** C library: [iscntrl] in the "C" locale. *)
Definition c_iscntrl (c : Z) : bool := ((0 <=? c) && (c <=? 31)) || (c =? 127).

(** C library: [snprintf(&dst[off], n, "%s", s)] with n bytes announced: writes at most n-1 characters and
    a terminator, nothing if n = 0; the value returned is always the length of [s]. *)
Definition snprintf_s (dst : list Z) (off n : nat) (s : list Z) : res (list Z) :=
  match n with
  | O => Ok dst
  | S m => put_list dst off (firstn m s ++ [0])
  end.

(** mbus-protocol.c 4597, 4600, 4603, 4606: the literals. *)
Definition s_amp := cstr "&amp;".
Definition s_lt := cstr "&lt;".
Definition s_gt := cstr "&gt;".
Definition s_quot := cstr "&quot;".
(** mbus-protocol.c 4592-4613: what replaces a printable character: an entity ([Some]) or itself. *)
Definition xml_entity (c : Z) : option (list Z) :=
  if c =? 38 then Some s_amp
  else if c =? 60 then Some s_lt
  else if c =? 62 then Some s_gt
  else if c =? 34 then Some s_quot
  else None.

(** mbus-protocol.c 4583-4617: the loop; [src] is the rest of the source array from index i. *)
Fixpoint xml_loop (src dst : list Z) (len max_len : nat) : res (list Z * nat) :=
  if (len + 6 <? max_len)%nat then
    match src with
    | [] => UB
    | c :: src' =>
        if c =? 0 then Ok (dst, len)
        else if c_iscntrl c then
          let* dst := wr dst len 32 in xml_loop src' dst (len + 1) max_len
        else
          match xml_entity c with
          | Some e => let* dst := snprintf_s dst len (max_len - len) e in
                      xml_loop src' dst (len + List.length e) max_len
          | None => let* dst := wr dst len c in xml_loop src' dst (len + 1) max_len
          end
    end
  else Ok (dst, len).

(** mbus-protocol.c 4563-4621 [mbus_str_xml_encode] for non-NULL pointers (a NULL [dst] gives -1, a NULL
    [src] writes the empty string and gives -2). *)
Definition mbus_str_xml_encode (dst src : list Z) (max_len : nat) : res (Z * list Z) :=
  let* (dst, len) := xml_loop src dst 0 max_len in
  let* dst := wr dst len 0 in
  Ok (0, dst).

(** ** The document buffer *)
(** buff (its length is buff_size, which always is the allocated size) and len. *)
Record doc := mkDoc { b_buf : list Z; b_len : nat }.

(** [len += snprintf(&buff[len], buff_size - len, "%s", s)]. If len > buff_size the unsigned difference wraps
    to a huge size and the write goes outside the allocation: undefined. *)
Definition doc_append (d : doc) (s : list Z) : res doc :=
  let size := List.length (b_buf d) in
  if (size <? b_len d)%nat then UB
  else let* buf := snprintf_s (b_buf d) (b_len d) (size - b_len d) s in
       Ok (mkDoc buf (b_len d + List.length s)).

(** mbus-protocol.c 4759-4773, 5001-5016, 5034-5049: [if ((buff_size - len) < 1024) buff_size *= 2, realloc].
    If len > buff_size the difference wraps and nothing is enlarged. Reallocation always succeeds; the new
    bytes (unspecified in C) are zero here. *)
Definition doc_grow (d : doc) : doc :=
  let size := List.length (b_buf d) in
  if (b_len d <=? size)%nat && (size - b_len d <? 1024)%nat
  then mkDoc (b_buf d ++ repeat 0 size) (b_len d) else d.

(** mbus-protocol.c 4748: buff_size = 8192, contents unspecified (zero here). *)
Definition doc_new : doc := mkDoc (repeat 0 (8 * 1024)) 0.

(** mbus-protocol.h 524. *)
Definition XML_PI : list Z := cstr "<?xml version=""1.0"" encoding=""ISO-8859-1""?>" ++ [10].
(** mbus-protocol.c 4752 and 4783. *)
Definition XML_OPEN : list Z := cstr "<MBusData>" ++ [10; 10].
Definition XML_CLOSE : list Z := cstr "</MBusData>" ++ [10].

(** ** Element texts *)
(** [mbus_str_xml_encode(str_encoded, s, sizeof(str_encoded))] for a buffer of [size] bytes (contents before the call
    unspecified, zero here); the text is then printed with %s. *)
Definition encoded (size : nat) (s : list Z) : res (list Z) :=
  let* (_, b) := mbus_str_xml_encode (repeat 0 size) (s ++ [0]) size in Ok (c_text b).

Definition nl : list Z := [10].
(** mbus-protocol.c 4626-4659 [mbus_data_variable_header_xml]; the 12 header bytes in order: id_bcd 4, manufacturer 2,
    version, medium, access_no, status, signature 2. The text stays below the 8192-byte buffer (theorem), so the
    appends are concatenation. *)
Definition mbus_data_variable_header_xml (h : list Z) : res (list Z) :=
  let* id := mbus_data_bcd_decode_hex h 4 in
  let* m0 := rd h 4 in let* m1 := rd h 5 in let* version := rd h 6 in let* medium := rd h 7 in
  let* acc := rd h 8 in let* status := rd h 9 in let* s0 := rd h 10 in let* s1 := rd h 11 in
  let* id3 := rd h 3 in
  let* man := mbus_decode_manufacturer m0 m1 in
  let* product := encoded 768 (product_name (Z.shiftl m1 8 + m0) version medium id3) in
  let* med := encoded 768 (mbus_data_variable_medium_lookup medium) in
  Ok (cstr "    <SlaveInformation>" ++ nl ++
      cstr "        <Id>" ++ fmt_X id ++ cstr "</Id>" ++ nl ++
      cstr "        <Manufacturer>" ++ c_text man ++ cstr "</Manufacturer>" ++ nl ++
      cstr "        <Version>" ++ fmt_d version ++ cstr "</Version>" ++ nl ++
      cstr "        <ProductName>" ++ product ++ cstr "</ProductName>" ++ nl ++
      cstr "        <Medium>" ++ med ++ cstr "</Medium>" ++ nl ++
      cstr "        <AccessNumber>" ++ fmt_d acc ++ cstr "</AccessNumber>" ++ nl ++
      cstr "        <Status>" ++ fmt_X2 status ++ cstr "</Status>" ++ nl ++
      cstr "        <Signature>" ++ fmt_X2 s1 ++ fmt_X2 s0 ++ cstr "</Signature>" ++ nl ++
      cstr "    </SlaveInformation>" ++ nl ++ nl).

(** mbus-protocol.c 4664-4738 [mbus_data_variable_record_xml]; [stamp] is the formatted receive time (None if the
    frame has no timestamp). The text stays below the 8192-byte buffer (theorem). *)
Definition mbus_data_variable_record_xml (r : rec) (record_cnt frame_cnt : Z) (stamp : option (list Z)) : res (list Z) :=
  let head :=
    if 0 <=? frame_cnt
    then cstr "    <DataRecord id=""" ++ fmt_d record_cnt ++ cstr """ frame=""" ++ fmt_d frame_cnt ++ cstr """>" ++ nl
    else cstr "    <DataRecord id=""" ++ fmt_d record_cnt ++ cstr """>" ++ nl in
  let* info :=
    (if r_dif r =? 0x0F then Ok (cstr "        <Function>Manufacturer specific</Function>" ++ nl)
     else if r_dif r =? 0x1F then Ok (cstr "        <Function>More records follow</Function>" ++ nl)
     else
       let* func := encoded 768 (mbus_data_record_function r) in
       let* storage := mbus_data_record_storage_number r in
       let* tariff := mbus_data_record_tariff r in
       let* dev := (if 0 <=? tariff then
                      let* d := mbus_data_record_device r in
                      Ok (cstr "        <Tariff>" ++ fmt_d tariff ++ cstr "</Tariff>" ++ nl ++
                          cstr "        <Device>" ++ fmt_d d ++ cstr "</Device>" ++ nl)
                    else Ok []) in
       let* u := mbus_data_record_unit r in
       let* unit := encoded 768 u in
       Ok (cstr "        <Function>" ++ func ++ cstr "</Function>" ++ nl ++
           cstr "        <StorageNumber>" ++ fmt_d storage ++ cstr "</StorageNumber>" ++ nl ++
           dev ++
           cstr "        <Unit>" ++ unit ++ cstr "</Unit>" ++ nl)) in
  let* v := mbus_data_record_value r in
  let* value := encoded 768 v in
  Ok (head ++ info ++
      cstr "        <Value>" ++ value ++ cstr "</Value>" ++ nl ++
      (match stamp with
       | Some t => cstr "        <Timestamp>" ++ t ++ cstr "</Timestamp>" ++ nl
       | None => []
       end) ++
      cstr "    </DataRecord>" ++ nl ++ nl).

(** mbus-protocol.c 4873-4898 [mbus_data_error_xml]: the text (below 8192 bytes, theorem). *)
Definition mbus_data_error_xml (e : Z) : res (list Z) :=
  let* t := encoded 256 (mbus_data_error_lookup e) in
  Ok (XML_PI ++ XML_OPEN ++ cstr "    <SlaveInformation>" ++ nl ++
      cstr "        <Error>" ++ t ++ cstr "</Error>" ++ nl ++
      cstr "    </SlaveInformation>" ++ nl ++ nl ++ XML_CLOSE).

(** mbus-protocol.c 4828-4845 and 4847-4862: one counter of the fixed structure. *)
Definition fixed_counter (id : string) (status type : Z) (val : list Z) : res (list Z) :=
  let* func := encoded 256 (mbus_data_fixed_function status) in
  let* unit := encoded 256 (mbus_data_fixed_unit type) in
  let* v := (if Z.land status 0x80 =? 0x00
             then let* n := mbus_data_bcd_decode_hex val 4 in Ok (fmt_X n)
             else let* (_, n) := mbus_data_int_decode val 4 in Ok (fmt_d n)) in
  Ok (cstr "    <DataRecord id=""" ++ cstr id ++ cstr """>" ++ nl ++
      cstr "        <Function>" ++ func ++ cstr "</Function>" ++ nl ++
      cstr "        <Unit>" ++ unit ++ cstr "</Unit>" ++ nl ++
      cstr "        <Value>" ++ v ++ cstr "</Value>" ++ nl ++
      cstr "    </DataRecord>" ++ nl ++ nl).
(** mbus-protocol.c 4795-4868 [mbus_data_fixed_xml]: the text (below 8192 bytes, theorem). *)
Definition mbus_data_fixed_xml (x : dfix) : res (list Z) :=
  let* id := mbus_data_bcd_decode_hex (x_id x) 4 in
  let* med := encoded 256 (mbus_data_fixed_medium x) in
  let* c1 := fixed_counter "0" (x_status x) (x_type1 x) (x_val1 x) in
  let* c2 := fixed_counter "1" (x_status x) (x_type2 x) (x_val2 x) in
  Ok (XML_PI ++ XML_OPEN ++ cstr "    <SlaveInformation>" ++ nl ++
      cstr "        <Id>" ++ fmt_X id ++ cstr "</Id>" ++ nl ++
      cstr "        <Medium>" ++ med ++ cstr "</Medium>" ++ nl ++
      cstr "        <AccessNumber>" ++ fmt_d (x_tx_cnt x) ++ cstr "</AccessNumber>" ++ nl ++
      cstr "        <Status>" ++ fmt_X2 (x_status x) ++ cstr "</Status>" ++ nl ++
      cstr "    </SlaveInformation>" ++ nl ++ nl ++ c1 ++ c2 ++ XML_CLOSE).

Section Doc.
  (** The formatted receive time for the record with this number (a record takes it from its telegram,
      mbus-protocol.c 3841), None if it is not positive. *)
  Variable stamp : Z -> option (list Z).

  (** mbus-protocol.c 4757-4777 / 4999-5018 / 5032-5051: the record loop; [i] numbers the records. *)
  Fixpoint doc_records (d : doc) (rs : list rec) (i frame_cnt : Z) : res (doc * Z) :=
    match rs with
    | [] => Ok (d, i)
    | r :: rs' =>
        let* t := mbus_data_variable_record_xml r i frame_cnt (stamp i) in
        let* d := doc_append (doc_grow d) t in
        doc_records d rs' (i + 1) frame_cnt
    end.

  (** mbus-protocol.c 4752-4757: beginning of the document. *)
  Definition doc_start (h : list Z) : res doc :=
    let* d := doc_append doc_new XML_PI in
    let* d := doc_append d XML_OPEN in
    let* t := mbus_data_variable_header_xml h in
    doc_append d t.

  (** mbus-protocol.c 4743-4790 [mbus_data_variable_xml] (allocation succeeds); the returned text. *)
  Definition mbus_data_variable_xml (dv : dvar) : res (list Z) :=
    let* d := doc_start (v_header dv) in
    let* (d, _) := doc_records d (v_records dv) 0 (-1) in
    let* d := doc_append d XML_CLOSE in
    Ok (c_text (b_buf d)).

  (** mbus-protocol.c 4903-4925 [mbus_frame_data_xml]: None = NULL. *)
  Definition mbus_frame_data_xml (fd : fdat) : res (option (list Z)) :=
    if d_type fd =? DT_ERROR then let* t := mbus_data_error_xml (d_error fd) in Ok (Some t)
    else if d_type fd =? DT_FIXED then let* t := mbus_data_fixed_xml (d_fix fd) in Ok (Some t)
    else if d_type fd =? DT_VARIABLE then let* t := mbus_data_variable_xml (d_var fd) in Ok (Some t)
    else Ok None.

  (** ** Record lists on the heap *)
  (** A heap of record lists: entry [Some rs] is allocated, [None] has been freed. A pointer is an index.
      [data_var.record] is NULL or such a pointer. *)
  Definition heap := list (option (list rec)).
  Definition deref (h : heap) (p : option nat) : res (list rec) :=
    match p with
    | None => Ok []
    | Some k => match nth_error h k with Some (Some rs) => Ok rs | _ => UB end
    end.
  Fixpoint release (h : heap) (k : nat) : res heap :=
    match h, k with
    | Some _ :: t, O => Ok (None :: t)
    | x :: t, S k' => let* t' := release t k' in Ok (x :: t')
    | _, _ => UB
    end.
  (** mbus-protocol.c 5140-5153 [mbus_data_record_free] on the head of a list frees the whole list; a freed
      or wild pointer is undefined behaviour. *)
  Definition free_list (h : heap) (p : option nat) : res heap :=
    match p with None => Ok h | Some k => release h k end.

  (** mbus-protocol.c 3823 ([data->record = NULL]) and 3858/3997 (append): the payload parser replaces the
      pointer only for a variable data reply of at least 12 bytes; the old list is not freed. *)
  Definition assigns_record (f : frame) : bool :=
    (Z.land (control f) 0x40 =? 0) && (ctrl_info f =? 0x72) && (12 <=? data_size f).
  Definition parse_heap (f : frame) (fd : fdat) (h : heap) (p : option nat) : res (Z * fdat * heap * option nat) :=
    let* (r, fd') := mbus_frame_data_parse f fd in
    if assigns_record f then
      match v_records (d_var fd') with
      | [] => Ok (r, fd', h, None)
      | rs => Ok (r, fd', h ++ [Some rs], Some (List.length h))
      end
    else Ok (r, fd', h, p).

  (** Outcome of [mbus_frame_xml]: the text or NULL; the heap of record lists; whether the document buffer
      was allocated and neither returned nor freed. *)
  Record xml_out := mkOut { o_text : option (list Z); o_heap : heap; o_lost_buffer : bool }.

  (** mbus-protocol.c 5027-5059: the loop over the following telegrams of the chain. *)
  Fixpoint xml_chain (fs : list frame) (fd : fdat) (h : heap) (p : option nat) (d : doc) (rcnt fcnt : Z)
    : res xml_out :=
    match fs with
    | [] => let* d := doc_append d XML_CLOSE in Ok (mkOut (Some (c_text (b_buf d))) h false)
    | f :: fs' =>
        let* (r, fd, h, p) := parse_heap f fd h p in
        if r =? -1 then Ok (mkOut None h true)
        else
          let* rs := deref h p in
          let* (d, rcnt) := doc_records d rs rcnt fcnt in
          let* h := free_list h p in
          xml_chain fs' fd h p d rcnt (fcnt + 1)
    end.

  Definition fd_zero : fdat :=
    mkFD (mkVar (repeat 0 12) [] 0 0) (mkFix [0; 0; 0; 0] 0 0 0 0 [0; 0; 0; 0] [0; 0; 0; 0]) 0 0.

  (** mbus-protocol.c 4931-5073 [mbus_frame_xml] on a chain of frames linked by [next] (allocation succeeds). *)
  Definition mbus_frame_xml (f : frame) (next : list frame) : res xml_out :=
    let* (r, fd, h, p) := parse_heap f fd_zero [] None in
    if r =? -1 then Ok (mkOut None h false)
    else if d_type fd =? DT_ERROR then let* t := mbus_data_error_xml (d_error fd) in Ok (mkOut (Some t) h false)
    else if d_type fd =? DT_FIXED then let* t := mbus_data_fixed_xml (d_fix fd) in Ok (mkOut (Some t) h false)
    else if d_type fd =? DT_VARIABLE then
      let fcnt := match next with [] => -1 | _ => 0 end in
      let* d := doc_start (v_header (d_var fd)) in
      let* rs := deref h p in
      let* (d, rcnt) := doc_records d rs 0 fcnt in
      let* h := free_list h p in
      xml_chain next fd h p d rcnt (fcnt + 1)
    else Ok (mkOut None h false).
End Doc.
