(** Specification: how long the texts of the library live. Every text function answers with a pointer to storage that
    belongs to the library. [spoilers] is the table a program has to know: the text got from [f] stays as it is until
    one of [spoilers f] is called. It names functions, not arrays. [plain] says what a
    call has to answer, [well] which arguments are meant. *)
From Verif Require Import CBase CStr MFrame MCodec MVar MText MXml MUnit MXmlN MSecond SVar SXml PText2 MStatic.

(** The functions of the interface that produce texts: the text functions, the documents, the normalised records. *)
Inductive fn :=
| F_decode_manufacturer | F_product_name | F_variable_medium | F_fixed_medium | F_fixed_unit | F_fixed_function
| F_unit_prefix | F_vif_unit | F_vib_unit | F_error | F_record_unit | F_record_value | F_record_function
| F_header_xml | F_secondary_address
| F_data_xml | F_frame_xml | F_data_xml_normalized | F_parse_fixed_record | F_parse_variable_record.

Definition fn_dec (a b : fn) : {a = b} + {a <> b}. Proof. decide equality. Defined.

(** Functions after which the text got from [f] may read differently. Documents and normalised records belong to the
    caller: nothing spoils them. *)
Definition spoilers (f : fn) : list fn :=
  match f with
  | F_decode_manufacturer => [F_decode_manufacturer; F_header_xml; F_data_xml; F_frame_xml; F_data_xml_normalized]
  | F_product_name => [F_product_name; F_header_xml; F_data_xml; F_frame_xml; F_data_xml_normalized]
  | F_variable_medium => [F_variable_medium; F_header_xml; F_data_xml; F_frame_xml; F_data_xml_normalized]
  | F_fixed_medium => [F_fixed_medium; F_data_xml; F_frame_xml; F_data_xml_normalized]
  | F_fixed_unit => [F_fixed_unit; F_data_xml; F_frame_xml; F_data_xml_normalized]
  | F_fixed_function => [F_fixed_function; F_data_xml; F_frame_xml; F_data_xml_normalized; F_parse_fixed_record]
  | F_unit_prefix => [F_unit_prefix; F_vif_unit; F_vib_unit; F_record_unit; F_data_xml; F_frame_xml]
  | F_vif_unit => [F_vif_unit; F_vib_unit; F_record_unit; F_data_xml; F_frame_xml]
  | F_vib_unit => [F_vif_unit; F_vib_unit; F_record_unit; F_data_xml; F_frame_xml]
  | F_error => [F_error; F_data_xml; F_frame_xml]
  | F_record_unit => [F_record_unit; F_data_xml; F_frame_xml]
  | F_record_value => [F_record_value; F_data_xml; F_frame_xml]
  | F_record_function => [F_record_function; F_data_xml; F_frame_xml; F_data_xml_normalized; F_parse_variable_record]
  | F_header_xml => [F_header_xml; F_data_xml; F_frame_xml; F_data_xml_normalized]
  | F_secondary_address => [F_secondary_address]
  | F_data_xml | F_frame_xml | F_data_xml_normalized | F_parse_fixed_record | F_parse_variable_record => []
  end.

(** The function called. *)
Definition fn_of (x : ask) : fn :=
  match x with
  | A_decode_manufacturer _ _ => F_decode_manufacturer
  | A_product_name _ => F_product_name
  | A_variable_medium _ => F_variable_medium
  | A_fixed_medium _ => F_fixed_medium
  | A_fixed_unit _ => F_fixed_unit
  | A_fixed_function _ => F_fixed_function
  | A_unit_prefix _ => F_unit_prefix
  | A_vif_unit _ => F_vif_unit
  | A_vib_unit _ => F_vib_unit
  | A_error _ => F_error
  | A_record_unit _ => F_record_unit
  | A_record_value _ => F_record_value
  | A_record_function _ => F_record_function
  | A_header_xml _ => F_header_xml
  | A_secondary_address _ => F_secondary_address
  | A_data_xml _ _ => F_data_xml
  | A_frame_xml _ _ _ => F_frame_xml
  | A_data_xml_normalized _ => F_data_xml_normalized
  | A_parse_fixed_record _ _ _ => F_parse_fixed_record
  | A_parse_variable_record _ => F_parse_variable_record
  end.

(** ** What a call has to answer *)
(** The value of the call as the models without storage give it: a function of the arguments alone. *)
Definition said (t : list Z) : res reading := Ok (Text (Some t)).
Definition plain (x : ask) : res reading :=
  match x with
  | A_decode_manufacturer b1 b2 => let* t := mbus_decode_manufacturer b1 b2 in said (c_text t)
  | A_product_name h =>
      let* m0 := rd h 4 in let* m1 := rd h 5 in let* version := rd h 6 in let* medium := rd h 7 in let* id3 := rd h 3 in
      said (product_name (Z.shiftl m1 8 + m0) version medium id3)
  | A_variable_medium b => said (mbus_data_variable_medium_lookup b)
  | A_fixed_medium x => said (mbus_data_fixed_medium x)
  | A_fixed_unit b => said (mbus_data_fixed_unit b)
  | A_fixed_function s => said (mbus_data_fixed_function s)
  | A_unit_prefix e => said (mbus_unit_prefix e)
  | A_vif_unit v => said (mbus_vif_unit_lookup v)
  | A_vib_unit r => let* t := mbus_vib_unit_lookup r in said t
  | A_error e => said (mbus_data_error_lookup e)
  | A_record_unit r => let* t := mbus_data_record_unit r in said t
  | A_record_value r => let* t := mbus_data_record_value r in said t
  | A_record_function r => said (mbus_data_record_function r)
  | A_header_xml h => let* t := mbus_data_variable_header_xml h in said t
  | A_secondary_address f => let* o := mbus_frame_get_secondary_address f in Ok (Text o)
  | A_data_xml stamp fd => let* o := mbus_frame_data_xml stamp fd in Ok (Text o)
  | A_frame_xml stamp f next => let* o := mbus_frame_xml stamp f next in Ok (Frames o)
  | A_data_xml_normalized fd => let* (o, l) := mbus_frame_data_xml_normalized fd in Ok (Normed o l)
  | A_parse_fixed_record st u data => let* o := mbus_parse_fixed_record st u data in Ok (Normal o false)
  | A_parse_variable_record r => let* (o, l) := mbus_parse_variable_record r in Ok (Normal o l)
  end.

(** ** Which arguments are meant *)
(** Numbers of records and telegrams stay below this. *)
Definition few (n : nat) : Prop := Z.of_nat n < 2 ^ 32.
(** A data object as the parser leaves it: 12 header bytes, records with their fields in bounds, fixed data of bytes. *)
Definition wf_fd (fd : fdat) : Prop :=
  bytes (v_header (d_var fd)) /\ List.length (v_header (d_var fd)) = 12%nat /\ Forall parsed_rec (v_records (d_var fd)) /\
  fixed_bytes (d_fix fd) /\ is_byte (d_error fd).
(** The frame carries a payload of bytes. *)
Definition loaded_frame (f : frame) : Prop := exists p, carries f p.
(** Receive times are formatted in at most 21 characters (1970-01-01T00:00:00Z has 20). *)
Definition stamps_ok (stamp : Z -> option (list Z)) : Prop := forall i t, stamp i = Some t -> ctext 21 t.
Definition well (x : ask) : Prop :=
  match x with
  | A_decode_manufacturer b1 b2 => is_byte b1 /\ is_byte b2
  | A_product_name h | A_header_xml h => bytes h /\ List.length h = 12%nat
  | A_variable_medium b | A_fixed_unit b | A_vif_unit b => is_byte b
  | A_fixed_medium _ | A_fixed_function _ => True
  | A_unit_prefix e => CBase.in_int e = true
  | A_error e => 0 <= e < 2 ^ 31
  | A_vib_unit r | A_record_unit r | A_record_value r | A_record_function r => parsed_rec r
  | A_secondary_address f => loaded_frame f
  | A_data_xml stamp fd => stamps_ok stamp /\ wf_fd fd /\ few (List.length (v_records (d_var fd)))
  | A_frame_xml stamp f next => stamps_ok stamp /\ loaded_frame f /\ Forall loaded_frame next /\ few (List.length next)
  | A_data_xml_normalized fd => wf_fd fd
  | A_parse_fixed_record _ _ _ | A_parse_variable_record _ => True
  end.
