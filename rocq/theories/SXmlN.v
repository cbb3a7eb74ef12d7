(** Specification of normalised XML documents. *)
From Coq Require Import String.
From Coq Require Import List.
From Coq Require Import Qabs.
From Verif Require Import CBase CStr MFrame MCodec MVar MText MUnit SText SCodec SVar SXml SUnit SNorm.

(** A number shown with six decimals: within half a millionth, with its sign. *)
Definition shows_number (x : real) (t : list Z) : Prop :=
  match x with
  | Num q => exists n, read_millionths t = Some n /\ (Qabs ((n # 1000000) - q) <= 1 # 2000000)%Q /\ ((q < 0)%Q <-> nth 0 t 0 = 45)
  | NonFinite negative nan => t = cstr (if negative then "-" else "") ++ cstr (if nan then "nan" else "inf")
  end.
Definition shows_value (v : value) (t : list Z) : Prop :=
  match v with VNum x => shows_number x t | VStr s _ => t = shown s end.
Definition text_of (o : option (list Z)) : list Z := match o with Some t => t | None => [] end.

(** The elements of a normalised record. *)
Definition norm_nodes (n : nrec) (ns : list node) : Prop :=
  exists st td v, decimal (n_storage n) st /\ shows_value (n_value n) v /\
    (if n_tariff n <? 0 then td = []
     else exists t d, decimal (n_tariff n) t /\ decimal (n_device n) d /\ td = [leaf "Tariff" t; leaf "Device" d]) /\
    ns = [leaf "Function" (n_function n); leaf "StorageNumber" st] ++ td ++
         [leaf "Unit" (shown (text_of (n_unit n))); leaf "Quantity" (shown (text_of (n_quantity n))); leaf "Value" v].
(** The elements for a record of a telegram: those of its normalised record; none if it cannot be normalised. *)
Definition norm_entry (e : entry) (ns : list node) : Prop :=
  exists o lost, mbus_parse_variable_record (match e with EData a => obj a | EBlock more b => obj_block (tail_dif more) b end) = Ok (o, lost) /\
    match o with Some n => norm_nodes n ns | None => ns = [] end.

(** The document: slave information, then one element for each record of the telegram, numbered. [P] says what
    the elements inside a record are. *)
Section Document.
  Variable P : entry -> list node -> Prop.
  Fixpoint norm_entries (es : list entry) (i : Z) (out : list node) : Prop :=
    match es with
    | [] => out = []
    | e :: es' => exists n ns out', out = n :: out' /\ P e ns /\ record_node i (-1) None ns n /\ norm_entries es' (i + 1) out'
    end.
  Definition norm_document (h : list Z) (es : list entry) (l : list Z) : Prop :=
    exists body slave recs,
      l = cstr "<?xml version=""1.0"" encoding=""ISO-8859-1""?>" ++ [10] ++ body /\
      renders body [Elem (cstr "MBusData") [] (slave :: recs)] /\ slave_node h slave /\ norm_entries es 0 recs.
End Document.

(** What is expected of a record: the meaning of its bytes. *)
Definition meaning_entry (e : entry) (ns : list node) : Prop :=
  match e with
  | EData a =>
      exists m c st td v, means a c /\ unit_of a = Some m /\ decimal (storage_number (a_dif a) (a_difes a)) st /\
      (match c with Number x => exists y, in_base_unit a m x y /\ shows_number y v | Text s => v = shown s end) /\
      (match a_difes a with
       | [] => td = []
       | _ => exists t d, decimal (tariff (a_difes a)) t /\ decimal (subunit (a_difes a)) d /\ td = [leaf "Tariff" t; leaf "Device" d]
       end) /\
      ns = [leaf "Function" (function_name (a_dif a)); leaf "StorageNumber" st] ++ td ++
           [leaf "Unit" (shown (m_unit m)); leaf "Quantity" (shown (m_quantity m)); leaf "Value" v]
  | EBlock more b =>
      exists st, decimal 0 st /\
      ns = [leaf "Function" (cstr (if more then "More records follow" else "Manufacturer specific")); leaf "StorageNumber" st;
            leaf "Unit" []; leaf "Quantity" []; leaf "Value" (hex_text (rev b))]
  end.

(** Conditions on a record: storage number within 31 bits; unit, quantity and value text, escaped, of at most 701
    characters together (a number counts as 80). *)
Definition text_size (n : nrec) : nat :=
  (List.length (escape_text (text_of (n_unit n))) + List.length (escape_text (text_of (n_quantity n))) +
   match n_value n with VNum _ => 80 | VStr s _ => List.length (escape_text s) end)%nat.
Definition small_norm (e : entry) : Prop :=
  match e with
  | EData a =>
      (List.length (a_difes a) <= 8)%nat /\ storage_number (a_dif a) (a_difes a) < 2 ^ 31 /\
      forall n lost, mbus_parse_variable_record (obj a) = Ok (Some n, lost) -> (text_size n <= 701)%nat
  | EBlock _ _ => True
  end.
(** The unit code is reserved (7B, 7D without extension). *)
Definition reserved_unit (e : entry) : bool := match e with EData a => (a_vif a =? 0x7B) || (a_vif a =? 0x7D) | EBlock _ _ => false end.
