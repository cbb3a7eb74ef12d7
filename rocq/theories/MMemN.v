(** Model of the functions for normalised records, with the memory they allocate and release, malloc() and strdup() allowed
    to fail at any call. No proofs here. *)
From Coq Require Import String.
From Coq Require Import List.
From Verif Require Import CBase CStr MFrame MCodec MVar MText MXml MUnit MXmlN MMem.
Local Open Scope Z_scope.

(** A char pointer that owns its text: NULL, or the address and the text. *)
Definition ptext := option (nat * list Z).
Definition forget (t : ptext) : option (list Z) := option_map snd t.
(** mbus-protocol-aux.h 125-149 [mbus_record] with its pointers; [PVStr]: is_numeric = 0. *)
Inductive pvalue := PVNum (x : real) | PVStr (t : ptext) (size : Z).
Record prec := mkPR { q_value : pvalue; q_unit : ptext; q_function : ptext; q_quantity : ptext; q_device : Z; q_tariff : Z; q_storage : Z }.

Definition strdup (s : list Z) (m : mem) : ptext * mem :=
  match malloc CBlock m with (Some a, m) => (Some (a, s), m) | (None, m) => (None, m) end.
Definition free_text (t : ptext) (m : mem) : res mem := free (option_map fst t) m.

(** mbus-protocol-aux.c 1174-1194 [mbus_record_new]. *)
Definition mbus_record_new (m : mem) : option nat * mem := malloc CBlock m.
Definition pr_new : prec := mkPR (PVNum (Num 0)) None None None (-1) (-1) 0.
(** mbus-protocol-aux.c 1197-1226 [mbus_record_free] of the record at [p] with contents [n]. *)
Definition mbus_record_free (p : nat) (n : prec) (m : mem) : res mem :=
  let* m := (match q_value n with PVStr t _ => free_text t m | PVNum _ => Ok m end) in
  let* m := free_text (q_unit n) m in
  let* m := free_text (q_function n) m in
  let* m := free_text (q_quantity n) m in
  free (Some p) m.

(** mbus-protocol-aux.c 1045-1074 [mbus_vif_unit_normalize]: return value, *unit_out, *value_out, *quantity_out. *)
Definition vif_unit_mem (vif : Z) (value : real) (m : mem) : Z * ptext * real * ptext * mem :=
  match mbus_vif_unit_normalize vif value with
  | (ret, u, v, q) => let (pu, m) := strdup u m in let (pq, m) := strdup q m in (ret, pu, v, pq, m)
  end.
(** mbus-protocol-aux.c 1077-1171 [mbus_vib_unit_normalize]; unit and quantity were NULL before. *)
Definition vib_unit_mem (r : rec) (value : real) (m : mem) : res (Z * ptext * real * ptext * mem) :=
  let* v0 := rd (r_vife r) 0 in
  let first :=
    if r_vif r =? 0xFD then
      if (r_nvife r =? 0)%nat then (-1, None, Num 0, None, m) else vif_unit_mem (Z.lor (Z.land v0 0x7F) 0x100) value m
    else if r_vif r =? 0xFB then
      if (r_nvife r =? 0)%nat then (-1, None, Num 0, None, m) else vif_unit_mem (Z.lor (Z.land v0 0x7F) 0x200) value m
    else if (r_vif r =? 0x7C) || (r_vif r =? 0xFC) then
      let (pu, m) := strdup (cstr "-") m in let (pq, m) := strdup (c_text (r_custom r)) m in (0, pu, value, pq, m)
    else vif_unit_mem (Z.land (r_vif r) 0x7F) value m in
  match first with
  | (ret, pu, v, pq, m) =>
      if negb (ret =? 0) then Ok (-1, pu, v, pq, m)
      else if negb (Z.land (r_vif r) 0x80 =? 0) && negb (r_vif r =? 0xFD) && negb (r_vif r =? 0xFB)
      then Ok (0, pu, vife_correction v0 v, pq, m) else Ok (0, pu, v, pq, m)
  end.
(** mbus-protocol-aux.c 829-1042 [mbus_variable_value_decode]: return value, number, text, size. The text is computed before the
    allocation here (the other way round in the code); -1 if there is no memory for it. *)
Definition value_decode_mem (r : rec) (m : mem) : res (Z * real * ptext * Z * mem) :=
  let* d := mbus_variable_value_decode r in
  match e_str d with
  | None => Ok (e_ret d, e_real d, None, e_size d, m)
  | Some s => match strdup s m with
              | (None, m) => Ok (-1, e_real d, None, 0, m)
              | (t, m) => Ok (e_ret d, e_real d, t, e_size d, m)
              end
  end.

(** mbus-protocol-aux.c 1229-1270 [mbus_parse_fixed_record]; *value_out stays 0 where it is not written. *)
Definition parse_fixed_mem (status medium_unit : Z) (data : list Z) (m : mem) : res (option (nat * prec) * mem) :=
  match mbus_record_new m with
  | (None, m) => Ok (None, m)
  | (Some p, m) =>
      match strdup (mbus_data_fixed_function status) m with
      | (None, m) => let* m := mbus_record_free p pr_new m in Ok (None, m)
      | (f, m) =>
          let* v := (if Z.land status 0x80 =? 0x00 then mbus_data_bcd_decode data 4
                     else let* (_, v) := mbus_data_long_decode data 4 in Ok v) in
          match mbus_fixed_normalize medium_unit v with
          | (ret, u, x, q) =>
              let (pu, m) := strdup u m in let (pq, m) := strdup q m in
              let n := mkPR (PVNum (match x with Some x => x | None => Num 0 end)) pu f pq (-1) (-1) 0 in
              if negb (ret =? 0) then let* m := mbus_record_free p n m in Ok (None, m)
              else Ok (Some (p, n), m)
          end
      end
  end.

(** mbus-protocol-aux.c 1273-1385 [mbus_parse_variable_record] (data not NULL). Until the value is stored (1320-1330, 1369-1379) the
    record counts as numeric. *)
Definition parse_variable_mem (r : rec) (m : mem) : res (option (nat * prec) * mem) :=
  match mbus_record_new m with
  | (None, m) => Ok (None, m)
  | (Some p, m) =>
      let* storage := mbus_data_record_storage_number r in
      let* tariff := mbus_data_record_tariff r in
      let* device := mbus_data_record_device r in
      let block := (r_dif r =? 0x0F) || (r_dif r =? 0x1F) in
      let func := if block then if r_dif r =? 0x1F then cstr "More records follow" else cstr "Manufacturer specific"
                  else mbus_data_record_function r in
      match strdup func m with
      | (None, m) => let* m := mbus_record_free p (mkPR (PVNum (Num 0)) None None None device tariff storage) m in Ok (None, m)
      | (f, m) =>
          let* (ret, x, t, size, m) := value_decode_mem r m in
          if negb (ret =? 0) then let* m := mbus_record_free p (mkPR (PVNum (Num 0)) None f None device tariff storage) m in Ok (None, m)
          else if block then
            Ok (Some (p, mkPR (match t with Some _ => PVStr t size | None => PVNum (Num 0) end) None f None device tariff storage), m)
          else
            let* (ret, u, y, q, m) := vib_unit_mem r x m in
            if negb (ret =? 0) then let* m := mbus_record_free p (mkPR (PVNum (Num 0)) u f q device tariff storage) m in Ok (None, m)
            else Ok (Some (p, mkPR (match t with Some _ => PVStr t size | None => PVNum y end) u f q device tariff storage), m)
      end
  end.

(** What the record shows; the encoder gives an empty text for NULL (mbus-protocol.c 4573-4577). *)
Definition seen (n : prec) : nrec :=
  mkN (match q_value n with PVNum x => VNum x | PVStr t size => VStr (match forget t with Some s => s | None => [] end) size end)
      (forget (q_unit n)) (match forget (q_function n) with Some s => s | None => [] end) (forget (q_quantity n)) (q_device n) (q_tariff n) (q_storage n).
(** mbus-protocol-aux.c 1411-1471: the loop over the records, the buffer at [b]; None: NULL is returned. *)
Fixpoint norm_records_mem (fuel : nat) (b : nat) (d : doc) (p : option nat) (i : Z) (m : mem) : res (option (nat * doc) * mem) :=
  match p, fuel with
  | None, _ => Ok (Some (b, d), m)
  | _, O => UB
  | Some a, S fuel' =>
      match look m a with
      | Some (CRec r next) =>
          let* (o, m) := parse_variable_mem r m in
          let size := List.length (b_buf d) in
          let* (q, m) := (if (b_len d <=? size)%nat && (size - b_len d <? 1024)%nat then realloc b CBlock m else Ok (Some b, m)) in
          match q with
          | None =>
              let* m := (match o with Some (c, n) => mbus_record_free c n m | None => Ok m end) in
              let* m := free (Some b) m in Ok (None, m)
          | Some b =>
              let* ls := record_lines i (option_map (fun o => seen (snd o)) o) in
              let* d := doc_lines (doc_grow d) ls in
              let* m := (match o with Some (c, n) => mbus_record_free c n m | None => Ok m end) in
              norm_records_mem fuel' b d next (i + 1) m
          end
      | _ => UB
      end
  end.
(** mbus-protocol-aux.c 1390-1480 [mbus_data_variable_xml_normalized] (data not NULL). *)
Definition variable_xmln_mem (dv : pvar) (m : mem) : res (option (list Z * nat) * mem) :=
  match malloc CBlock m with
  | (None, m) => Ok (None, m)
  | (Some b, m) =>
      let* d := doc_start (pv_header dv) in
      let* (o, m) := norm_records_mem (S (List.length (m_cells m))) b d (pv_record dv) 0 m in
      match o with
      | None => Ok (None, m)
      | Some (b, d) => let* d := doc_append d XML_CLOSE in Ok (Some (c_text (b_buf d), b), m)
      end
  end.
(** mbus-protocol-aux.c 1485-1501 [mbus_frame_data_xml_normalized] (data not NULL). *)
Definition frame_data_xmln_mem (fd : pdat) (m : mem) : res (option (list Z * nat) * mem) :=
  if p_type fd =? DT_FIXED then text_mem (mbus_data_fixed_xml (p_fix fd)) m
  else if p_type fd =? DT_VARIABLE then variable_xmln_mem (p_var fd) m
  else Ok (None, m).
