(** Model of the normalised XML generation of mbus/mbus-protocol-aux.c. No proofs here. *)
From Coq Require Import String.
From Coq Require Import List.
From Verif Require Import CBase CStr MFrame MCodec MVar MText MXml MUnit.

(** C library: %f of a double. Six decimals, correctly rounded, as glibc prints it in the default rounding mode. Zero
    is never negative here (the model of doubles has one zero). *)
Definition print_f (x : real) : list Z :=
  match x with
  | Num q =>
      let n := round_div (Z.abs (Qnum q) * 10 ^ 6) (Z.pos (Qden q)) in
      (if Qnum q <? 0 then [45] else []) ++ fmt_u (n / 10 ^ 6) ++ 46 :: zpad 6 (fmt_u (n mod 10 ^ 6))
  | NonFinite negative nan => (if negative then [45] else []) ++ (if nan then cstr "nan" else cstr "inf")
  end.

(** [mbus_str_xml_encode(str_encoded, s, sizeof(str_encoded))] for a pointer that may be NULL: NULL gives the empty
    string (mbus-protocol.c 4573-4577). *)
Definition encoded_opt (size : nat) (s : option (list Z)) : res (list Z) :=
  match s with Some s => encoded size s | None => Ok [] end.

(** mbus-protocol-aux.c 1434-1462: the lines of a normalised record, each one [snprintf]. *)
Definition norm_lines (n : nrec) : res (list (list Z)) :=
  let* func := encoded 768 (n_function n) in
  let dev := if 0 <=? n_tariff n
             then [cstr "        <Tariff>" ++ fmt_d (n_tariff n) ++ cstr "</Tariff>" ++ nl;
                   cstr "        <Device>" ++ fmt_d (n_device n) ++ cstr "</Device>" ++ nl]
             else [] in
  let* unit := encoded_opt 768 (n_unit n) in
  let* quantity := encoded_opt 768 (n_quantity n) in
  let* value := (match n_value n with VNum x => Ok (print_f x) | VStr s _ => encoded 768 s end) in
  Ok ([cstr "        <Function>" ++ func ++ cstr "</Function>" ++ nl;
       cstr "        <StorageNumber>" ++ fmt_d (n_storage n) ++ cstr "</StorageNumber>" ++ nl] ++
      dev ++
      [cstr "        <Unit>" ++ unit ++ cstr "</Unit>" ++ nl;
       cstr "        <Quantity>" ++ quantity ++ cstr "</Quantity>" ++ nl;
       cstr "        <Value>" ++ value ++ cstr "</Value>" ++ nl]).
(** mbus-protocol-aux.c 1430, 1470: around them; a record that cannot be normalised (NULL) has no lines. *)
Definition record_lines (i : Z) (o : option nrec) : res (list (list Z)) :=
  let* ls := (match o with Some n => norm_lines n | None => Ok [] end) in
  Ok ((cstr "    <DataRecord id=""" ++ fmt_d i ++ cstr """>" ++ nl) :: ls ++ [cstr "    </DataRecord>" ++ nl ++ nl]).

(** Consecutive [len += snprintf(&buff[len], buff_size - len, ...)]. *)
Fixpoint doc_lines (d : doc) (ls : list (list Z)) : res doc :=
  match ls with
  | [] => Ok d
  | l :: ls' => let* d := doc_append d l in doc_lines d ls'
  end.

(** mbus-protocol-aux.c 1411-1471: the loop over the records; [lost] counts decoded texts that were allocated and not
    released. *)
Fixpoint norm_records (d : doc) (rs : list rec) (i : Z) (lost : nat) : res (doc * nat) :=
  match rs with
  | [] => Ok (d, lost)
  | r :: rs' =>
      let* (o, l) := mbus_parse_variable_record r in
      let* ls := record_lines i o in
      let* d := doc_lines (doc_grow d) ls in
      norm_records d rs' (i + 1) (if l : bool then S lost else lost)
  end.

(** mbus-protocol-aux.c 1390-1480 [mbus_data_variable_xml_normalized] (data not NULL, allocation succeeds): the text and
    the number of texts lost. The document begins like that of [mbus_data_variable_xml]. *)
Definition mbus_data_variable_xml_normalized (dv : dvar) : res (list Z * nat) :=
  let* d := doc_start (v_header dv) in
  let* (d, lost) := norm_records d (v_records dv) 0 0 in
  let* d := doc_append d XML_CLOSE in
  Ok (c_text (b_buf d), lost).

(** mbus-protocol-aux.c 1485-1501 [mbus_frame_data_xml_normalized] (data not NULL); None = NULL. *)
Definition mbus_frame_data_xml_normalized (fd : fdat) : res (option (list Z) * nat) :=
  if d_type fd =? DT_FIXED then let* t := mbus_data_fixed_xml (d_fix fd) in Ok (Some t, 0%nat)
  else if d_type fd =? DT_VARIABLE then let* (t, lost) := mbus_data_variable_xml_normalized (d_var fd) in Ok (Some t, lost)
  else Ok (None, 0%nat).
