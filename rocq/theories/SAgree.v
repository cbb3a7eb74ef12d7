(** Specification: the plain and the normalised XML document of a reply. *)
From Coq Require Import String.
From Coq Require Import List.
From Coq Require Import Qabs.
From Verif Require Import CBase CStr MFrame MCodec MVar MText MUnit SText SCodec SVar SXml SUnit SNorm SXmlN.
Local Open Scope Z_scope.

(** The text of the first element with this name. *)
Fixpoint field (name : string) (ns : list node) : option (list Z) :=
  match ns with
  | [] => None
  | Leaf n t :: r => if list_eq_dec Z.eq_dec n (cstr name) then Some t else field name r
  | Elem _ _ _ :: r => field name r
  end.

(** Two lists of data record elements, one for each record of the telegram, with the same attributes; [R] relates the
    elements inside. *)
Fixpoint records (R : entry -> list node -> list node -> Prop) (es : list entry) (ps qs : list node) : Prop :=
  match es, ps, qs with
  | [], [], [] => True
  | e :: es', Elem n a p :: ps', Elem n' a' q :: qs' =>
      n = cstr "DataRecord" /\ n' = n /\ a' = a /\ R e p q /\ records R es' ps' qs'
  | _, _, _ => False
  end.
(** Two documents with the same slave information and such records. *)
Definition agree (R : entry -> list node -> list node -> Prop) (es : list entry) (p q : list Z) : Prop :=
  exists pb qb slave ps qs,
    p = cstr "<?xml version=""1.0"" encoding=""ISO-8859-1""?>" ++ [10] ++ pb /\
    q = cstr "<?xml version=""1.0"" encoding=""ISO-8859-1""?>" ++ [10] ++ qb /\
    renders pb [Elem (cstr "MBusData") [] (slave :: ps)] /\ renders qb [Elem (cstr "MBusData") [] (slave :: qs)] /\
    records R es ps qs.

(** The plain and the normalised elements of a record say the same function and address; a manufacturer specific block
    has the same value. *)
Definition shares (e : entry) (p q : list node) : Prop :=
  field "Function" p <> None /\ field "Function" q = field "Function" p /\
  field "Tariff" q = field "Tariff" p /\ field "Device" q = field "Device" p /\
  match e with
  | EData _ => field "StorageNumber" p <> None /\ field "StorageNumber" q = field "StorageNumber" p
  | EBlock _ _ => field "Value" p <> None /\ field "Value" q = field "Value" p
  end.

(** A text that tells a number: exactly, in decimal, or with six decimals, within half a millionth. *)
Definition tells (x : real) (t : list Z) : Prop :=
  match x with
  | Num q => (exists n, decimal n t /\ (q == inject_Z n)%Q) \/
             (exists n, read_millionths t = Some n /\ (Qabs ((n # 1000000) - q) <= 1 # 2000000)%Q)
  | NonFinite negative false => t = cstr (if negative then "-inf" else "inf")
  | NonFinite _ true => t = cstr "nan" \/ t = cstr "-nan"
  end.
(** The normalised value is the plain one in the base unit; texts are the same, except that times get a final Z. *)
Definition converted (e : entry) (p q : list node) : Prop :=
  match e with
  | EBlock _ _ => True
  | EData a => exists m v w, unit_of a = Some m /\ field "Value" p = Some v /\ field "Value" q = Some w /\
      field "Unit" q = Some (shown (m_unit m)) /\ field "Quantity" q = Some (shown (m_quantity m)) /\
      ((exists x y, tells x v /\ in_base_unit a m x y /\ shows_number y w) \/
       (w = if vif_datetime (a_vif a) (nth 0 (a_vifes a) 0) && ((a_dif a mod 16 =? 4) || (a_dif a mod 16 =? 6)) then v ++ [90] else v))
  end.
(** A BCD value in error state is shown by its digits in the plain document. *)
Definition bcd_error (e : entry) : Prop :=
  match e with EData a => In (a_dif a mod 16) [9; 10; 11; 12; 14] /\ error_state (a_dif a) = true | EBlock _ _ => False end.
