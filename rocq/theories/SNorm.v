(** Specification of normalised records: what the bytes of a data record mean. *)
From Coq Require Import String.
From Coq Require Import List.
From Verif Require Import CBase CStr MFrame MCodec MVar MText MUnit SVar SText SCodec SXml SUnit.

Inductive content := Number (x : real) | Text (t : list Z).

(** The number an IEEE value is. *)
Definition ieee_number (i : ieee) (x : real) : Prop :=
  match i, x with
  | Finite m e, Num q => (q == inject_Z m * Qpower 2 e)%Q
  | Infinite s, NonFinite s' nan => s' = s /\ nan = false
  | NaN, NonFinite _ nan => nan = true
  | _, _ => False
  end.

(** The content of the value field (EN 13757-3): no data; integers; BCD; reals; dates and times (UTC mark Z at the end
    of a time); text, last character first; other variable-length data and special functions as hexadecimal digits,
    most significant byte first. *)
Inductive means (a : arec) : content -> Prop :=
| me_none : a_dif a mod 16 = 0 -> means a (Text [])
| me_int : int_record (a_dif a) (a_vif a) (nth 0 (a_vifes a) 0) -> means a (Number (Num (inject_Z (twos (length (a_value a)) (le (a_value a))))))
| me_bcd ds : In (a_dif a mod 16) [9; 10; 11; 12; 14] -> a_value a = pack_digits ds -> Forall (fun p => digit (fst p) /\ digit (snd p)) ds ->
    means a (Number (Num (inject_Z (dec (flat ds)))))
| me_bcd_negative ds lo : In (a_dif a mod 16) [9; 10; 11; 12; 14] -> a_value a = pack_digits (ds ++ [(lo, 15)]) ->
    Forall (fun p => digit (fst p) /\ digit (snd p)) ds -> digit lo -> means a (Number (Num (inject_Z (- dec (flat ds ++ [lo])))))
| me_real x : a_dif a mod 16 = 5 -> ieee_number (ieee_value (le (a_value a))) x -> means a (Number x)
| me_date day month year t : a_dif a mod 16 = 2 -> vif_date (a_vif a) = true -> a_value a = type_g day month year ->
    0 <= day <= 31 -> 0 <= month <= 15 -> 0 <= year <= 127 -> iso_date (2000 + year) month day t -> means a (Text t)
| me_time_f minute hour day month year hy su r0 t : a_dif a mod 16 = 4 -> vif_datetime (a_vif a) (nth 0 (a_vifes a) 0) = true ->
    a_value a = type_f minute hour day month year hy su 0 r0 ->
    0 <= minute <= 63 -> 0 <= hour <= 31 -> 0 <= day <= 31 -> 0 <= month <= 15 -> 0 <= year <= 127 -> 0 <= hy <= 3 -> 0 <= su <= 1 -> 0 <= r0 <= 1 ->
    iso_datetime ((if (hy =? 0) && (year <=? 80) then 2000 else 1900 + 100 * hy) + year) month day hour minute 0 t -> means a (Text (t ++ [90]))
| me_time_i sec minute hour day month year dst lp r wd b5 t : a_dif a mod 16 = 6 -> vif_datetime (a_vif a) (nth 0 (a_vifes a) 0) = true ->
    a_value a = type_i sec minute hour day month year dst lp r 0 wd b5 ->
    0 <= sec <= 63 -> 0 <= minute <= 63 -> 0 <= hour <= 31 -> 0 <= day <= 31 -> 0 <= month <= 15 ->
    0 <= year <= 127 -> 0 <= dst <= 1 -> 0 <= lp <= 1 -> 0 <= r <= 1 -> 0 <= wd <= 7 ->
    iso_datetime (2000 + year) month day hour minute sec t -> means a (Text (t ++ [90]))
| me_text b w : a_dif a mod 16 = 13 -> a_value a = b :: w -> b <= 0xBF -> c_chars w -> means a (Text (rev w))
| me_binary b w : a_dif a mod 16 = 13 -> a_value a = b :: w -> 0xBF < b -> means a (Text (hex_text (rev w)))
| me_special : a_dif a mod 16 = 15 -> means a (Text (hex_text (rev (a_value a)))).

(** The unit of a record: given in plain text (VIF 7C, FC), or by the tables of the standard. *)
Definition unit_of (a : arec) : option meaning :=
  if has_text (a_vif a) then Some (mkM 1 (cstr "-") (a_text a)) else vib_meaning (a_vif a) (nth 0 (a_vifes a) 0).
(** The number of a record in the base unit: scaled by its unit, corrected by its first extension. *)
Definition in_base_unit (a : arec) (m : meaning) (x y : real) : Prop :=
  scales x (m_factor m * correction (a_vif a) (nth 0 (a_vifes a) 0)) (offset (a_vif a) (nth 0 (a_vifes a) 0)) y.
(** Everything but the value. *)
Definition described (a : arec) (m : meaning) (n : nrec) : Prop :=
  n_unit n = Some (m_unit m) /\ n_quantity n = Some (m_quantity m) /\ n_function n = function_name (a_dif a) /\
  n_storage n = storage_number (a_dif a) (a_difes a) /\
  n_tariff n = (match a_difes a with [] => -1 | ds => tariff ds end) /\ n_device n = (match a_difes a with [] => -1 | ds => subunit ds end).
