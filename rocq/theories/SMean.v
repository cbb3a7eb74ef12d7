(** Specification of XML documents of variable data replies in terms of the meaning of the records' bytes. *)
From Coq Require Import String.
From Coq Require Import List.
From Verif Require Import CBase CStr MFrame MCodec MVar MText MUnit SVar SText SCodec SXml SUnit SNorm SUText.

(** The right texts for the value field of a record (EN 13757-3). A BCD number in error state is shown by its digits. *)
Inductive value_text (a : arec) : list Z -> Prop :=
| vt_none : a_dif a mod 16 = 0 -> value_text a []
| vt_int t : int_record (a_dif a) (a_vif a) (nth 0 (a_vifes a) 0) -> decimal (twos (length (a_value a)) (le (a_value a))) t -> value_text a t
| vt_bcd ds t : In (a_dif a mod 16) [9; 10; 11; 12; 14] -> error_state (a_dif a) = false -> a_value a = pack_digits ds ->
    Forall (fun p => digit (fst p) /\ digit (snd p)) ds -> decimal (dec (flat ds)) t -> value_text a t
| vt_bcd_negative ds lo t : In (a_dif a mod 16) [9; 10; 11; 12; 14] -> error_state (a_dif a) = false -> a_value a = pack_digits (ds ++ [(lo, 15)]) ->
    Forall (fun p => digit (fst p) /\ digit (snd p)) ds -> digit lo -> decimal (- dec (flat ds ++ [lo])) t -> value_text a t
| vt_bcd_error t : In (a_dif a mod 16) [9; 10; 11; 12; 14] -> error_state (a_dif a) = true -> hexadecimal (le (a_value a)) t -> value_text a t
| vt_real t : a_dif a mod 16 = 5 ->
    match ieee_value (le (a_value a)) with
    | Finite m e => exists n, read_millionths t = Some n /\ nearest_millionth m e n
    | Infinite false => t = cstr "inf"
    | Infinite true => t = cstr "-inf"
    | NaN => t = cstr "nan" \/ t = cstr "-nan"
    end -> value_text a t
| vt_date day month year t : a_dif a mod 16 = 2 -> vif_date (a_vif a) = true -> a_value a = type_g day month year ->
    0 <= day <= 31 -> 0 <= month <= 15 -> 0 <= year <= 127 -> iso_date (2000 + year) month day t -> value_text a t
| vt_time_f minute hour day month year hy su r0 t : a_dif a mod 16 = 4 -> vif_datetime (a_vif a) (nth 0 (a_vifes a) 0) = true ->
    a_value a = type_f minute hour day month year hy su 0 r0 ->
    0 <= minute <= 63 -> 0 <= hour <= 31 -> 0 <= day <= 31 -> 0 <= month <= 15 -> 0 <= year <= 127 -> 0 <= hy <= 3 -> 0 <= su <= 1 -> 0 <= r0 <= 1 ->
    iso_datetime ((if (hy =? 0) && (year <=? 80) then 2000 else 1900 + 100 * hy) + year) month day hour minute 0 t -> value_text a t
| vt_time_i sec minute hour day month year dst lp r wd b5 t : a_dif a mod 16 = 6 -> vif_datetime (a_vif a) (nth 0 (a_vifes a) 0) = true ->
    a_value a = type_i sec minute hour day month year dst lp r 0 wd b5 ->
    0 <= sec <= 63 -> 0 <= minute <= 63 -> 0 <= hour <= 31 -> 0 <= day <= 31 -> 0 <= month <= 15 ->
    0 <= year <= 127 -> 0 <= dst <= 1 -> 0 <= lp <= 1 -> 0 <= r <= 1 -> 0 <= wd <= 7 ->
    iso_datetime (2000 + year) month day hour minute sec t -> value_text a t
| vt_text b w : a_dif a mod 16 = 13 -> a_value a = b :: w -> b <= 0xBF -> c_chars w -> value_text a (rev w)
| vt_binary b w : a_dif a mod 16 = 13 -> a_value a = b :: w -> 0xBF < b -> value_text a (hex_text (rev w))
| vt_special : a_dif a mod 16 = 15 -> value_text a (hex_text (rev (a_value a))).

(** The right texts for the unit of a record: a text sent with the record, with its power of ten if an extension
    gives one; else a text that says the unit and quantity of the code. *)
Definition unit_text (a : arec) (u : list Z) : Prop :=
  if has_text (a_vif a) then
    if a_vif a =? 0x7C then u = a_text a
    else let c := nth 0 (a_vifes a) 0 mod 128 in
         0x70 <= c <= 0x77 /\ exists s, multiple s (c - 0x70 - 6) /\ u = s ++ [32] ++ a_text a
  else exists m, unit_of a = Some m /\ says u m.

(** The elements of a record. *)
Definition plain_entry (e : entry) (ns : list node) : Prop :=
  match e with
  | EData a =>
      exists u v st td,
      unit_text a u /\ value_text a v /\ decimal (storage_number (a_dif a) (a_difes a)) st /\
      (match a_difes a with
       | [] => td = []
       | _ => exists t d, decimal (tariff (a_difes a)) t /\ decimal (subunit (a_difes a)) d /\ td = [leaf "Tariff" t; leaf "Device" d]
       end) /\
      ns = [leaf "Function" (function_name (a_dif a)); leaf "StorageNumber" st] ++ td ++ [leaf "Unit" (shown u); leaf "Value" (shown v)]
  | EBlock more b =>
      ns = [leaf "Function" (cstr (if more then "More records follow" else "Manufacturer specific")); leaf "Value" (hex_text (rev b))]
  end.

(** The document, as in SXml.document, with these elements. *)
Section Document.
  Variable stamp : Z -> option (list Z).
  Fixpoint plain_entries (es : list entry) (i frame_no : Z) (out : list node) : Prop :=
    match es with
    | [] => out = []
    | e :: es' => exists n ns out', out = n :: out' /\ plain_entry e ns /\ record_node i frame_no (stamp i) ns n /\
                    plain_entries es' (i + 1) frame_no out'
    end.
  Fixpoint plain_telegrams (tels : list (list entry)) (i frame_no : Z) (out : list node) : Prop :=
    match tels with
    | [] => out = []
    | es :: tels' => exists o1 o2, out = o1 ++ o2 /\ plain_entries es i frame_no o1 /\
                       plain_telegrams tels' (i + Z.of_nat (List.length es)) (frame_no + 1) o2
    end.
  Definition plain_document (h : list Z) (tels : list (list entry)) (l : list Z) : Prop :=
    exists body slave recs,
      l = cstr "<?xml version=""1.0"" encoding=""ISO-8859-1""?>" ++ [10] ++ body /\
      renders body [Elem (cstr "MBusData") [] (slave :: recs)] /\
      slave_node h slave /\ plain_telegrams tels 0 (match tels with [_] => -1 | _ => 0 end) recs.
End Document.
(** The record has a meaning: its value field, and its unit. Excluded are the codes 79 and 7E and, after VIF FC, other
    extensions than a power of ten: the code has no text for them (C62). A text with a power of ten has at most 121
    characters (more are cut off). *)
Definition plain_meaning (e : entry) : Prop :=
  match e with
  | EData a => (exists v, value_text a v) /\ (exists u, unit_text a u) /\ ~ In (a_vif a mod 128) [0x79; 0x7E] /\
               (has_text (a_vif a) = true -> c_chars (a_text a)) /\ (a_vif a = 0xFC -> (List.length (a_text a) <= 121)%nat)
  | EBlock _ _ => True
  end.
