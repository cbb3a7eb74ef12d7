(** Model of the functions that allocate, link and release memory, object by object, with malloc() allowed to fail at any call. No proofs here. *)
From Coq Require Import String.
From Coq Require Import List.
From Verif Require Import CBase CStr MFrame MCodec MVar MText MXml MSecond.
Local Open Scope Z_scope.

(** An allocated object: a mbus_data_record (mbus-protocol.h 186-198) with its next pointer, a mbus_frame (143-167) with its
    next pointer, or anything that is not followed further (a mbus_frame_data, a text buffer). *)
Inductive cell := CRec (r : rec) (next : option nat) | CFrame (f : frame) (next : option nat) | CBlock.
(** The memory: the object at each address (None: released); addresses are not used again. [m_fails]: which of the next
    allocations fail (true); all after the end of the list succeed. *)
Record mem := mkM { m_cells : list (option cell); m_fails : list bool }.
Definition look (m : mem) (a : nat) : option cell := nth a (m_cells m) None.
Fixpoint put (l : list (option cell)) (a : nat) (c : option cell) : list (option cell) :=
  match l, a with
  | [], _ => []
  | _ :: t, O => c :: t
  | x :: t, S a' => x :: put t a' c
  end.
(** malloc() and initialisation. *)
Definition malloc (c : cell) (m : mem) : option nat * mem :=
  match m_fails m with
  | true :: fs => (None, mkM (m_cells m) fs)
  | fs => (Some (List.length (m_cells m)), mkM (m_cells m ++ [Some c]) (tl fs))
  end.
(** free(): a pointer to nothing allocated is undefined behaviour; NULL is ignored. *)
Definition free (p : option nat) (m : mem) : res mem :=
  match p with
  | None => Ok m
  | Some a => match look m a with Some _ => Ok (mkM (put (m_cells m) a None) (m_fails m)) | None => UB end
  end.
Definition store (a : nat) (c : cell) (m : mem) : res mem :=
  match look m a with Some _ => Ok (mkM (put (m_cells m) a (Some c)) (m_fails m)) | None => UB end.
(** realloc(): the old object if it fails, else released and a new one. *)
Definition realloc (a : nat) (c : cell) (m : mem) : res (option nat * mem) :=
  match malloc c m with
  | (None, m') => Ok (None, m')
  | (Some b, m') => let* m'' := free (Some a) m' in Ok (Some b, m'')
  end.

(** mbus-protocol.c 5120-5135 [mbus_data_record_new]. *)
Definition mbus_data_record_new (m : mem) : option nat * mem := malloc (CRec rec_new None) m.
(** mbus-protocol.c 5141-5153 [mbus_data_record_free]: the next pointer is read before the record is released. [fuel]: one more
    than there are objects is enough, every step releases one. *)
Fixpoint record_free_from (fuel : nat) (p : option nat) (m : mem) : res mem :=
  match p, fuel with
  | None, _ => Ok m
  | _, O => UB
  | Some a, S fuel' =>
      match look m a with
      | Some (CRec _ next) => let* m' := free (Some a) m in record_free_from fuel' next m'
      | _ => UB
      end
  end.
Definition mbus_data_record_free (p : option nat) (m : mem) : res mem := record_free_from (S (List.length (m_cells m))) p m.
(** mbus-protocol.c 5171-5172: the end of the list; a circular list has none (endless loop, UB here). *)
Fixpoint record_last (fuel : nat) (a : nat) (m : mem) : res nat :=
  match fuel with
  | O => UB
  | S fuel' =>
      match look m a with
      | Some (CRec _ None) => Ok a
      | Some (CRec _ (Some b)) => record_last fuel' b m
      | _ => UB
      end
  end.
(** mbus-protocol.c 5158-5178 [mbus_data_record_append] on data->record [head]; result: the new data->record. *)
Definition mbus_data_record_append (head p : option nat) (m : mem) : res (option nat * mem) :=
  match p, head with
  | None, _ => Ok (head, m)
  | _, None => Ok (p, m)
  | Some _, Some a =>
      let* b := record_last (S (List.length (m_cells m))) a m in
      match look m b with
      | Some (CRec r _) => let* m' := store b (CRec r p) m in Ok (head, m')
      | _ => UB
      end
  end.

(** mbus-protocol.c 127-172 [mbus_frame_new]: contents as in MFrame. *)
Definition frame_alloc (type : Z) (m : mem) : option nat * mem := malloc (CFrame (mbus_frame_new type) None) m.
(** mbus-protocol.c 178-190 [mbus_frame_free]: the rest of the chain first; endless recursion on a circular chain is UB. *)
Fixpoint frame_free_from (fuel : nat) (p : option nat) (m : mem) : res mem :=
  match p, fuel with
  | None, _ => Ok m
  | _, O => UB
  | Some a, S fuel' =>
      match look m a with
      | Some (CFrame _ next) => let* m' := frame_free_from fuel' next m in free (Some a) m'
      | _ => UB
      end
  end.
Definition mbus_frame_free (p : option nat) (m : mem) : res (Z * mem) :=
  match p with
  | None => Ok (-1, m)
  | Some _ => let* m' := frame_free_from (S (List.length (m_cells m))) p m in Ok (0, m')
  end.

(** mbus-protocol.h 201-222 with the pointer data->record in place of the list. *)
Record pvar := mkPV { pv_header : list Z; pv_record : option nat; pv_nrecords : Z; pv_more : Z }.
(** mbus-protocol.c 3825-4002: the record loop of [mbus_data_variable_parse]; the work on one record is that of MVar. The record
    being filled is complete when it is stored; only its address matters before. *)
Fixpoint records_mem (fuel : nat) (d : list Z) (n i : nat) (dv : pvar) (m : mem) : res (Z * pvar * mem) :=
  match fuel with
  | O => UB
  | S fuel' =>
      if (i <? n)%nat then
        let* b := rd d i in
        if Z.land b 0xFF =? 0x2F then records_mem fuel' d n (i + 1) dv m
        else
          match mbus_data_record_new m with
          | (None, m) => Ok (-2, dv, m)
          | (Some a, m) =>
              if (b =? 0x0F) || (b =? 0x1F) then
                let more := if Z.land b 0xFF =? 0x1F then 1 else pv_more dv in
                let* (r, i') := parse_rest d n i b in
                let* m := store a (CRec r None) m in
                let* (head, m) := mbus_data_record_append (pv_record dv) (Some a) m in
                records_mem fuel' d n i' (mkPV (pv_header dv) head (pv_nrecords dv + 1) more) m
              else
                let* s := parse_record d n i in
                match s with
                | Fail => let* m := mbus_data_record_free (Some a) m in Ok (-1, dv, m)
                | Go (r, i') =>
                    let* m := store a (CRec r None) m in
                    let* (head, m) := mbus_data_record_append (pv_record dv) (Some a) m in
                    records_mem fuel' d n i' (mkPV (pv_header dv) head (pv_nrecords dv + 1) (pv_more dv)) m
                end
          end
      else Ok (0, dv, m)
  end.
(** mbus-protocol.c 3790-4008 [mbus_data_variable_parse]. *)
Definition variable_parse_mem (f : frame) (dv : pvar) (m : mem) : res (Z * pvar * mem) :=
  let n := Z.to_nat (data_size f) in
  if (n <? 12)%nat then Ok (-1, mkPV (pv_header dv) (pv_record dv) 0 0, m)
  else
    let* h := copy_loop 12 (repeat 0 12) 0 (fdata f) 0 in
    records_mem (S n) (fdata f) n 12 (mkPV h None 0 0) m.
(** mbus-protocol.h 260-269 with the pointer. *)
Record pdat := mkPD { p_var : pvar; p_fix : dfix; p_type : Z; p_error : Z }.
Definition pd_zero : pdat := mkPD (mkPV (repeat 0 12) None 0 0) (d_fix fd_zero) 0 0.
(** mbus-protocol.c 4014-4085 [mbus_frame_data_parse]. *)
Definition data_parse_mem (f : frame) (fd : pdat) (m : mem) : res (Z * pdat * mem) :=
  if Z.land (control f) 0x40 =? 0 then
    if ctrl_info f =? 0x70 then
      if data_size f >? 0 then
        let* e := rd (fdata f) 0 in Ok (0, mkPD (p_var fd) (p_fix fd) DT_ERROR e, m)
      else Ok (0, mkPD (p_var fd) (p_fix fd) DT_ERROR 0, m)
    else if ctrl_info f =? 0x73 then
      if data_size f =? 0 then Ok (-1, fd, m)
      else
        let* (r, df) := mbus_data_fixed_parse f (p_fix fd) in
        Ok (r, mkPD (p_var fd) df DT_FIXED (p_error fd), m)
    else if ctrl_info f =? 0x72 then
      if data_size f =? 0 then Ok (-1, fd, m)
      else
        let* (r, dv, m) := variable_parse_mem f (p_var fd) m in
        Ok (r, mkPD dv (p_fix fd) DT_VARIABLE (p_error fd), m)
    else Ok (-1, fd, m)
  else Ok (-1, fd, m).

(** mbus-protocol.c 5080-5096 [mbus_frame_data_new]: an object and its contents (all zero). *)
Definition mbus_frame_data_new (m : mem) : option nat * mem := malloc CBlock m.
(** mbus-protocol.c 5102-5113 [mbus_frame_data_free] of the object at [p] with contents [fd]. *)
Definition mbus_frame_data_free (p : option nat) (fd : pdat) (m : mem) : res mem :=
  match p with
  | None => Ok m
  | Some _ => let* m := mbus_data_record_free (pv_record (p_var fd)) m in free p m
  end.
(** mbus-protocol.c 5183-5224 [mbus_frame_get_secondary_address] (frame not NULL). *)
Definition secondary_address_mem (f : frame) (m : mem) : res (option (list Z) * mem) :=
  match mbus_frame_data_new m with
  | (None, m) => Ok (None, m)
  | (p, m) =>
      if negb (ctrl_info f =? 0x72) then let* m := mbus_frame_data_free p pd_zero m in Ok (None, m)
      else
        let* (r, fd, m) := data_parse_mem f pd_zero m in
        if r =? -1 then let* m := mbus_frame_data_free p fd m in Ok (None, m)
        else
          let h := pv_header (p_var fd) in
          let* id := mbus_data_bcd_decode_hex h 4 in
          let* m0 := rd h 4 in let* m1 := rd h 5 in let* version := rd h 6 in let* medium := rd h 7 in
          let* m := mbus_frame_data_free p fd m in
          Ok (Some (zpad 8 (fmt_X id) ++ fmt_X2 m0 ++ fmt_X2 m1 ++ fmt_X2 version ++ fmt_X2 medium), m)
  end.

Section Xml.
  Variable stamp : Z -> option (list Z).
  (** A document: its buffer's address and its text so far (contents of the buffer). *)
  (** mbus-protocol.c 4999-5018, 5032-5051 (4757-4777 likewise): the record loop over the list; None: the buffer could not be enlarged. *)
  Fixpoint doc_records_mem (fuel : nat) (b : nat) (d : doc) (p : option nat) (i frame_cnt : Z) (m : mem) : res (option (nat * doc * Z) * nat * mem) :=
    match p, fuel with
    | None, _ => Ok (Some (b, d, i), b, m)
    | _, O => UB
    | Some a, S fuel' =>
        match look m a with
        | Some (CRec r next) =>
            let size := List.length (b_buf d) in
            let* (q, m) := (if (b_len d <=? size)%nat && (size - b_len d <? 1024)%nat then realloc b CBlock m else Ok (Some b, m)) in
            match q with
            | None => Ok (None, b, m)
            | Some b =>
                let* t := mbus_data_variable_record_xml r i frame_cnt (stamp i) in
                let* d := doc_append (doc_grow d) t in
                doc_records_mem fuel' b d next (i + 1) frame_cnt m
            end
        | _ => UB
        end
    end.
  Definition doc_list (b : nat) (d : doc) (p : option nat) (i frame_cnt : Z) (m : mem) : res (option (nat * doc * Z) * nat * mem) :=
    doc_records_mem (S (List.length (m_cells m))) b d p i frame_cnt m.
  (** mbus-protocol.c 4743-4790 [mbus_data_variable_xml]: the text and the buffer that holds it; None: NULL. *)
  Definition variable_xml_mem (dv : pvar) (m : mem) : res (option (list Z * nat) * mem) :=
    match malloc CBlock m with
    | (None, m) => Ok (None, m)
    | (Some b, m) =>
        let* d := doc_start (pv_header dv) in
        let* (o, b, m) := doc_list b d (pv_record dv) 0 (-1) m in
        match o with
        | None => let* m := free (Some b) m in Ok (None, m)
        | Some (b, d, _) => let* d := doc_append d XML_CLOSE in Ok (Some (c_text (b_buf d), b), m)
        end
    end.
  (** mbus-protocol.c 4795-4868, 4873-4898 [mbus_data_fixed_xml], [mbus_data_error_xml]. *)
  Definition text_mem (t : res (list Z)) (m : mem) : res (option (list Z * nat) * mem) :=
    match malloc CBlock m with
    | (None, m) => Ok (None, m)
    | (Some b, m) => let* t := t in Ok (Some (t, b), m)
    end.
  (** mbus-protocol.c 4903-4925 [mbus_frame_data_xml]. *)
  Definition frame_data_xml_mem (fd : pdat) (m : mem) : res (option (list Z * nat) * mem) :=
    if p_type fd =? DT_ERROR then text_mem (mbus_data_error_xml (p_error fd)) m
    else if p_type fd =? DT_FIXED then text_mem (mbus_data_fixed_xml (p_fix fd)) m
    else if p_type fd =? DT_VARIABLE then variable_xml_mem (p_var fd) m
    else Ok (None, m).
  (** mbus-protocol.c 5027-5059: the following telegrams of the chain. A result other than -1 of the parser (-2: no memory) is not noticed. *)
  Fixpoint xml_chain_mem (fs : list frame) (fd : pdat) (b : nat) (d : doc) (rcnt fcnt : Z) (m : mem) : res (option (list Z * nat) * mem) :=
    match fs with
    | [] => let* d := doc_append d XML_CLOSE in Ok (Some (c_text (b_buf d), b), m)
    | f :: fs' =>
        let* (r, fd, m) := data_parse_mem f fd m in
        if r =? -1 then Ok (None, m)
        else
          let* (o, b, m) := doc_list b d (pv_record (p_var fd)) rcnt fcnt m in
          match o with
          | None => let* m := free (Some b) m in let* m := mbus_data_record_free (pv_record (p_var fd)) m in Ok (None, m)
          | Some (b, d, rcnt) =>
              let* m := mbus_data_record_free (pv_record (p_var fd)) m in
              xml_chain_mem fs' fd b d rcnt (fcnt + 1) m
          end
    end.
  (** mbus-protocol.c 4931-5073 [mbus_frame_xml] on a chain of frames. *)
  Definition frame_xml_mem (f : frame) (next : list frame) (m : mem) : res (option (list Z * nat) * mem) :=
    let* (r, fd, m) := data_parse_mem f pd_zero m in
    if r =? -1 then Ok (None, m)
    else if p_type fd =? DT_ERROR then text_mem (mbus_data_error_xml (p_error fd)) m
    else if p_type fd =? DT_FIXED then text_mem (mbus_data_fixed_xml (p_fix fd)) m
    else if p_type fd =? DT_VARIABLE then
      let fcnt := match next with [] => -1 | _ => 0 end in
      match malloc CBlock m with
      | (None, m) => let* m := mbus_data_record_free (pv_record (p_var fd)) m in Ok (None, m)
      | (Some b, m) =>
          let* d := doc_start (pv_header (p_var fd)) in
          let* (o, b, m) := doc_list b d (pv_record (p_var fd)) 0 fcnt m in
          match o with
          | None => let* m := free (Some b) m in let* m := mbus_data_record_free (pv_record (p_var fd)) m in Ok (None, m)
          | Some (b, d, rcnt) =>
              let* m := mbus_data_record_free (pv_record (p_var fd)) m in
              xml_chain_mem next fd b d rcnt (fcnt + 1) m
          end
      end
    else Ok (None, m).
End Xml.
