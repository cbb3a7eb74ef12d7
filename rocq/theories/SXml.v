(** Specification of XML text: escaping and its inverse, document structure. *)
From Coq Require Import String.
From Coq Require Import List.
From Verif Require Import CBase CStr MFrame MCodec MVar MText SText SCodec SVar.

(** Control characters of ASCII. *)
Definition is_control (c : Z) : bool := (c <? 32) || (c =? 127).

(** Escaping of one character: ampersand, angle brackets and the double quote become entities, control characters blanks. *)
Definition escape (c : Z) : list Z :=
  if is_control c then [32]
  else if c =? 38 then [38; 97; 109; 112; 59]            (* &amp; *)
  else if c =? 60 then [38; 108; 116; 59]                (* &lt; *)
  else if c =? 62 then [38; 103; 116; 59]                (* &gt; *)
  else if c =? 34 then [38; 113; 117; 111; 116; 59]      (* &quot; *)
  else [c].
Definition escape_text (s : list Z) : list Z := flat_map escape s.

(** What an XML reader makes of the text. *)
Fixpoint unescape (l : list Z) : list Z :=
  match l with
  | 38 :: 97 :: 109 :: 112 :: 59 :: t => 38 :: unescape t
  | 38 :: 108 :: 116 :: 59 :: t => 60 :: unescape t
  | 38 :: 103 :: 116 :: 59 :: t => 62 :: unescape t
  | 38 :: 113 :: 117 :: 111 :: 116 :: 59 :: t => 34 :: unescape t
  | c :: t => c :: unescape t
  | [] => []
  end.
Definition blank_control (c : Z) : Z := if is_control c then 32 else c.

(** Text safe inside an element: no markup or control characters, '&' only starting one of the entities. *)
Inductive safe_text : list Z -> Prop :=
| st_nil : safe_text []
| st_char c t : 32 <= c < 256 -> c <> 127 -> c <> 38 -> c <> 60 -> c <> 62 -> c <> 34 -> safe_text t -> safe_text (c :: t)
| st_amp t : safe_text t -> safe_text (38 :: 97 :: 109 :: 112 :: 59 :: t)
| st_lt t : safe_text t -> safe_text (38 :: 108 :: 116 :: 59 :: t)
| st_gt t : safe_text t -> safe_text (38 :: 103 :: 116 :: 59 :: t)
| st_quot t : safe_text t -> safe_text (38 :: 113 :: 117 :: 111 :: 116 :: 59 :: t).

(** The characters of a C string: bytes without NUL. *)
Definition c_chars (s : list Z) : Prop := Forall (fun c => 1 <= c < 256) s.

(** ** Documents *)
(** An element with text, or with attributes and child elements. *)
Inductive node :=
| Leaf (name text : list Z)
| Elem (name : list Z) (attrs : list (list Z * list Z)) (children : list node).
Definition blanks (l : list Z) : Prop := Forall (fun c => c = 32 \/ c = 10) l.
(** Element and attribute names: letters only. *)
Definition name_ok (l : list Z) : Prop := l <> [] /\ Forall (fun c => 65 <= c <= 90 \/ 97 <= c <= 122) l.
Definition attrs_text (attrs : list (list Z * list Z)) : list Z :=
  flat_map (fun nv => 32 :: fst nv ++ 61 :: 34 :: snd nv ++ [34]) attrs.
(** [renders l ns]: the characters [l] are the elements [ns] in order, each with matching start and end tag, escaped
    text, and only blanks and newlines between. *)
Inductive renders : list Z -> list node -> Prop :=
| rn_nil ws : blanks ws -> renders ws []
| rn_leaf ws name e t rest ns : blanks ws -> name_ok name -> safe_text e -> unescape e = t -> renders rest ns ->
    renders (ws ++ [60] ++ name ++ [62] ++ e ++ [60; 47] ++ name ++ [62] ++ rest) (Leaf name t :: ns)
| rn_elem ws name attrs inner children rest ns : blanks ws -> name_ok name ->
    Forall (fun nv => name_ok (fst nv) /\ safe_text (snd nv)) attrs -> renders inner children -> renders rest ns ->
    renders (ws ++ [60] ++ name ++ attrs_text attrs ++ [62] ++ inner ++ [60; 47] ++ name ++ [62] ++ rest)
            (Elem name attrs children :: ns).
Definition leaf (name : string) (t : list Z) : node := Leaf (cstr name) t.
(** A text as shown to a reader: control characters become blanks. *)
Definition shown (s : list Z) : list Z := map blank_control s.

(** A hexadecimal number of exactly [w] digits. *)
Definition hex_width (w : nat) (n : Z) (l : list Z) : Prop := length l = w /\ read_nat 16 l = Some n /\ capitals l.
(** The three letters of a manufacturer code. *)
Definition manufacturer_text (code : Z) (l : list Z) : Prop :=
  exists a b c, l = [a; b; c] /\ 64 <= a <= 95 /\ 64 <= b <= 95 /\ 64 <= c <= 95 /\ flag_id a b c = code mod 2 ^ 15.

(** Slave information of a variable data reply with this header: identification number as sent (BCD digits),
    manufacturer, version, product and medium names, access number, status and signature. *)
Definition slave_node (h : list Z) (n : node) : Prop :=
  exists i0 i1 i2 i3 m0 m1 version medium access status s0 s1,
  h = [i0; i1; i2; i3; m0; m1; version; medium; access; status; s0; s1] /\
  exists tid tman tver tacc tst tsig,
    hexadecimal (le [i0; i1; i2; i3]) tid /\
    manufacturer_text (m0 + 256 * m1) tman /\ decimal version tver /\ decimal access tacc /\
    hex_width 2 status tst /\ hex_width 4 (s0 + 256 * s1) tsig /\
    n = Elem (cstr "SlaveInformation") []
          [leaf "Id" tid; leaf "Manufacturer" tman; leaf "Version" tver;
           leaf "ProductName" (shown (product_name (m0 + 256 * m1) version medium i3));
           leaf "Medium" (shown (mbus_data_variable_medium_lookup medium));
           leaf "AccessNumber" tacc; leaf "Status" tst; leaf "Signature" tsig].

(** The function field of the DIF. *)
Definition function_name (dif : Z) : list Z :=
  nth (Z.to_nat ((dif / 16) mod 4))
    [cstr "Instantaneous value"; cstr "Maximum value"; cstr "Minimum value"; cstr "Value during error state"] [].

(** What a telegram lists: its data records and possibly a final manufacturer specific block (0F; 1F if more telegrams
    follow). Fillers are not listed. *)
Inductive entry := EData (a : arec) | EBlock (more : bool) (b : list Z).
Definition entry_item (it : item) : list entry := match it with Filler => [] | Data a => [EData a] end.
Definition entry_tail (t : tail) : list entry := match t with None => [] | Some (more, b) => [EBlock more b] end.
Definition entries (its : list item) (t : tail) : list entry := flat_map entry_item its ++ entry_tail t.

(** The elements inside a record: unit and value are the texts of mbus_data_record_unit and mbus_data_record_value. *)
Definition entry_nodes (e : entry) (ns : list node) : Prop :=
  match e with
  | EData a =>
      exists u v st td,
      mbus_data_record_unit (obj a) = Ok u /\ mbus_data_record_value (obj a) = Ok v /\
      decimal (storage_number (a_dif a) (a_difes a)) st /\
      (match a_difes a with
       | [] => td = []
       | _ => exists t d, decimal (tariff (a_difes a)) t /\ decimal (subunit (a_difes a)) d /\ td = [leaf "Tariff" t; leaf "Device" d]
       end) /\
      ns = [leaf "Function" (function_name (a_dif a)); leaf "StorageNumber" st] ++ td ++ [leaf "Unit" (shown u); leaf "Value" (shown v)]
  | EBlock more b =>
      ns = [leaf "Function" (cstr (if more then "More records follow" else "Manufacturer specific")); leaf "Value" (hex_text (rev b))]
  end.
(** One record: its number, the number of its telegram if there are several, its elements, the receive time if known. *)
Definition record_node (i frame_no : Z) (stamp : option (list Z)) (ns : list node) (n : node) : Prop :=
  exists ti attrs, decimal i ti /\
  (if frame_no <? 0 then attrs = [(cstr "id", ti)]
   else exists tf, decimal frame_no tf /\ attrs = [(cstr "id", ti); (cstr "frame", tf)]) /\
  n = Elem (cstr "DataRecord") attrs (ns ++ match stamp with Some s => [leaf "Timestamp" s] | None => [] end).

Section Document.
  (** Formatted receive time of the i-th record. *)
  Variable stamp : Z -> option (list Z).
  Fixpoint entries_nodes (es : list entry) (i frame_no : Z) (out : list node) : Prop :=
    match es with
    | [] => out = []
    | e :: es' => exists n ns out', out = n :: out' /\ entry_nodes e ns /\ record_node i frame_no (stamp i) ns n /\
                    entries_nodes es' (i + 1) frame_no out'
    end.
  Fixpoint telegrams_nodes (tels : list (list entry)) (i frame_no : Z) (out : list node) : Prop :=
    match tels with
    | [] => out = []
    | es :: tels' => exists o1 o2, out = o1 ++ o2 /\ entries_nodes es i frame_no o1 /\
                       telegrams_nodes tels' (i + Z.of_nat (List.length es)) (frame_no + 1) o2
    end.
  (** The document: XML declaration, one MBusData element with the slave information of the first telegram and the
      records of all telegrams, numbered through; the telegram number appears if there are several telegrams. *)
  Definition document (h : list Z) (tels : list (list entry)) (l : list Z) : Prop :=
    exists body slave recs,
      l = cstr "<?xml version=""1.0"" encoding=""ISO-8859-1""?>" ++ [10] ++ body /\
      renders body [Elem (cstr "MBusData") [] (slave :: recs)] /\
      slave_node h slave /\ telegrams_nodes tels 0 (match tels with [_] => -1 | _ => 0 end) recs.
End Document.

(** Conditions on a record: well-formed; storage number within 31 bits; unit and value text, escaped, of at most 661
    characters together. *)
Definition wf_entry (e : entry) : Prop :=
  match e with EData a => wf_rec a | EBlock _ b => (List.length b <= 234)%nat /\ bytes b end.
Definition small_entry (e : entry) : Prop :=
  match e with
  | EData a =>
      (List.length (a_difes a) <= 8)%nat /\ storage_number (a_dif a) (a_difes a) < 2 ^ 31 /\
      forall u v, mbus_data_record_unit (obj a) = Ok u -> mbus_data_record_value (obj a) = Ok v ->
        (List.length (escape_text u) + List.length (escape_text v) <= 661)%nat
  | EBlock _ _ => True
  end.
(** A formatted receive time: at most 20 printable characters without markup. *)
Definition stamp_ok (s : option (list Z)) : Prop :=
  match s with
  | None => True
  | Some t => (List.length t <= 20)%nat /\ Forall (fun c => 45 <= c <= 58 \/ 65 <= c <= 90) t
  end.

(** A variable data reply from a slave with this header and body. *)
Definition var_telegram (f : frame) (h : list Z) (its : list item) (t : tail) : Prop :=
  carries f (h ++ enc_body its t) /\ List.length h = 12%nat /\ Forall wf_item its /\ wf_tail t /\
  is_byte (control f) /\ (control f / 64) mod 2 = 0 /\ ctrl_info f = 0x72.

(** An application error reply and a reply with the fixed data structure. *)
Definition error_document (text l : list Z) : Prop :=
  exists body, l = cstr "<?xml version=""1.0"" encoding=""ISO-8859-1""?>" ++ [10] ++ body /\
    renders body [Elem (cstr "MBusData") [] [Elem (cstr "SlaveInformation") [] [leaf "Error" (shown text)]]].
(** Counter value: BCD digits as sent, or a binary number, by bit 7 of the status. *)
Definition counter_text (status : Z) (val t : list Z) : Prop :=
  if status <? 128 then hexadecimal (le val) t else decimal (twos 4 (le val)) t.
Definition fixed_document (x : dfix) (l : list Z) : Prop :=
  exists body tid tacc tst v1 v2,
    l = cstr "<?xml version=""1.0"" encoding=""ISO-8859-1""?>" ++ [10] ++ body /\
    hexadecimal (le (x_id x)) tid /\ decimal (x_tx_cnt x) tacc /\ hex_width 2 (x_status x) tst /\
    counter_text (x_status x) (x_val1 x) v1 /\ counter_text (x_status x) (x_val2 x) v2 /\
    renders body [Elem (cstr "MBusData") []
      [Elem (cstr "SlaveInformation") [] [leaf "Id" tid; leaf "Medium" (shown (mbus_data_fixed_medium x)); leaf "AccessNumber" tacc; leaf "Status" tst];
       Elem (cstr "DataRecord") [(cstr "id", cstr "0")]
         [leaf "Function" (shown (mbus_data_fixed_function (x_status x))); leaf "Unit" (shown (mbus_data_fixed_unit (x_type1 x))); leaf "Value" v1];
       Elem (cstr "DataRecord") [(cstr "id", cstr "1")]
         [leaf "Function" (shown (mbus_data_fixed_function (x_status x))); leaf "Unit" (shown (mbus_data_fixed_unit (x_type2 x))); leaf "Value" v2]]].
Definition fixed_bytes (x : dfix) : Prop :=
  bytes (x_id x) /\ List.length (x_id x) = 4%nat /\ bytes (x_val1 x) /\ List.length (x_val1 x) = 4%nat /\
  bytes (x_val2 x) /\ List.length (x_val2 x) = 4%nat /\
  is_byte (x_tx_cnt x) /\ is_byte (x_status x) /\ is_byte (x_type1 x) /\ is_byte (x_type2 x).
