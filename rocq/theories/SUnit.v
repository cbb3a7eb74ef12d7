(** Specification of units (EN 13757-3, tables of the main VIF, of the extensions FB and FD, and of the fixed data
    structure), written as ranges and independently of the tables in the code. *)
From Coq Require Import String.
From Coq Require Import List.
From Coq Require Import QArith Qabs.
From Verif Require Import CBase CStr SText MDouble.
Local Open Scope Z_scope.

(** 10^e. *)
Definition ten (e : Z) : Q := Qpower 10 e.
(** An assigned code: the factor to the base unit, the unit, the quantity. *)
Record meaning := mkM { m_factor : Q; m_unit : list Z; m_quantity : list Z }.

(** [count] codes from [lo] on; the code lo + n stands for 10^(e + n) units. *)
Definition decades (lo count e : Z) (unit quantity : string) (code : Z) : option meaning :=
  if (lo <=? code) && (code <? lo + count) then Some (mkM (ten (e + (code - lo))) (cstr unit) (cstr quantity)) else None.
(** Four codes from [lo] on: seconds, minutes, hours, days. *)
Definition durations (lo : Z) (quantity : string) (code : Z) : option meaning :=
  if code =? lo then Some (mkM 1 (cstr "s") (cstr quantity))
  else if code =? lo + 1 then Some (mkM 60 (cstr "s") (cstr quantity))
  else if code =? lo + 2 then Some (mkM 3600 (cstr "s") (cstr quantity))
  else if code =? lo + 3 then Some (mkM 86400 (cstr "s") (cstr quantity))
  else None.
(** A month is a twelfth of a year of 31556926 s, given to 1/100 s. *)
Definition month : Q := 262974383 # 100.
Definition year : Q := 31556926.
(** Four codes from [lo] on: hours, days, months, years. *)
Definition long_durations (lo : Z) (quantity : string) (code : Z) : option meaning :=
  if code =? lo then Some (mkM 3600 (cstr "s") (cstr quantity))
  else if code =? lo + 1 then Some (mkM 86400 (cstr "s") (cstr quantity))
  else if code =? lo + 2 then Some (mkM month (cstr "s") (cstr quantity))
  else if code =? lo + 3 then Some (mkM year (cstr "s") (cstr quantity))
  else None.
Definition months_years (lo : Z) (quantity : string) (code : Z) : option meaning :=
  if code =? lo then Some (mkM month (cstr "s") (cstr quantity))
  else if code =? lo + 1 then Some (mkM year (cstr "s") (cstr quantity)) else None.
(** One code without a factor. *)
Definition single (c : Z) (unit quantity : string) (code : Z) : option meaning :=
  if code =? c then Some (mkM 1 (cstr unit) (cstr quantity)) else None.

Fixpoint first (fs : list (Z -> option meaning)) (code : Z) : option meaning :=
  match fs with
  | [] => None
  | f :: fs' => match f code with Some m => Some m | None => first fs' code end
  end.

(** The main table (7 bits). Not listed: 6F reserved, 7B-7D extensions and plain text. *)
Definition main_vif : Z -> option meaning := first
  [decades 0x00 8 (-3) "Wh" "Energy";
   decades 0x08 8 0 "J" "Energy";
   decades 0x10 8 (-6) "m^3" "Volume";
   decades 0x18 8 (-3) "kg" "Mass";
   durations 0x20 "On time";
   durations 0x24 "Operating time";
   decades 0x28 8 (-3) "W" "Power";
   decades 0x30 8 0 "J/h" "Power";
   decades 0x38 8 (-6) "m^3/h" "Volume flow";
   decades 0x40 8 (-7) "m^3/min" "Volume flow";
   decades 0x48 8 (-9) "m^3/s" "Volume flow";
   decades 0x50 8 (-3) "kg/h" "Mass flow";
   decades 0x58 4 (-3) "°C" "Flow temperature";
   decades 0x5C 4 (-3) "°C" "Return temperature";
   decades 0x60 4 (-3) "K" "Temperature difference";
   decades 0x64 4 (-3) "°C" "External temperature";
   decades 0x68 4 (-3) "bar" "Pressure";
   single 0x6C "-" "Time point (date)";
   single 0x6D "-" "Time point (date & time)";
   single 0x6E "Units for H.C.A." "H.C.A.";
   durations 0x70 "Averaging Duration";
   durations 0x74 "Actuality Duration";
   single 0x78 "" "Fabrication No";
   single 0x79 "" "(Enhanced) Identification";
   single 0x7A "" "Bus Address";
   single 0x7E "" "Any VIF";
   single 0x7F "" "Manufacturer specific"].

(** Extension table after VIF FD (7 bits of the VIFE). Reserved codes are not listed. *)
Definition fd_vif : Z -> option meaning := first
  [decades 0x00 4 (-3) "Currency units" "Credit";
   decades 0x04 4 (-3) "Currency units" "Debit";
   single 0x08 "" "Access Number (transmission count)";
   single 0x09 "" "Medium";
   single 0x0A "" "Manufacturer";
   single 0x0B "" "Parameter set identification";
   single 0x0C "" "Model / Version";
   single 0x0D "" "Hardware version";
   single 0x0E "" "Firmware version";
   single 0x0F "" "Software version";
   single 0x10 "" "Customer location";
   single 0x11 "" "Customer";
   single 0x12 "" "Access Code User";
   single 0x13 "" "Access Code Operator";
   single 0x14 "" "Access Code System Operator";
   single 0x15 "" "Access Code Developer";
   single 0x16 "" "Password";
   single 0x17 "" "Error flags";
   single 0x18 "" "Error mask";
   single 0x1A "" "Digital Output";
   single 0x1B "" "Digital Input";
   single 0x1C "Baud" "Baudrate";
   single 0x1D "Bittimes" "Response delay time";
   single 0x1E "" "Retry";
   single 0x20 "" "First storage # for cyclic storage";
   single 0x21 "" "Last storage # for cyclic storage";
   single 0x22 "" "Size of storage block";
   durations 0x24 "Storage interval";
   months_years 0x28 "Storage interval";
   durations 0x2C "Duration since last readout";
   single 0x30 "-" "Start of tariff";
   (fun c => if c =? 0x30 then None else durations 0x30 "Duration of tariff" c);
   durations 0x34 "Period of tariff";
   months_years 0x38 "Period of tariff";
   single 0x3A "" "Dimensionless";
   decades 0x40 16 (-9) "V" "Voltage";
   decades 0x50 16 (-12) "A" "Current";
   single 0x60 "" "Reset counter";
   single 0x61 "" "Cumulation counter";
   single 0x62 "" "Control signal";
   single 0x63 "" "Day of week";
   single 0x64 "" "Week number";
   single 0x65 "" "Time point of day change";
   single 0x66 "" "State of parameter activation";
   single 0x67 "" "Special supplier information";
   long_durations 0x68 "Duration since last cumulation";
   long_durations 0x6C "Operating time battery";
   single 0x70 "" "Date and time of battery change"].

(** Extension table after VIF FB (7 bits of the VIFE). Reserved codes are not listed. *)
Definition fb_vif : Z -> option meaning := first
  [decades 0x00 2 5 "Wh" "Energy";
   decades 0x08 2 8 "J" "Energy";
   decades 0x10 2 2 "m^3" "Volume";
   decades 0x18 2 5 "kg" "Mass";
   decades 0x21 1 (-1) "feet^3" "Volume";
   decades 0x22 2 (-1) "American gallon" "Volume";
   decades 0x24 1 (-3) "American gallon/min" "Volume flow";
   single 0x25 "American gallon/min" "Volume flow";
   single 0x26 "American gallon/h" "Volume flow";
   decades 0x28 2 5 "W" "Power";
   decades 0x30 2 8 "J/h" "Power";
   decades 0x58 4 (-3) "°F" "Flow temperature";
   decades 0x5C 4 (-3) "°F" "Return temperature";
   decades 0x60 4 (-3) "°F" "Temperature difference";
   decades 0x64 4 (-3) "°F" "External temperature";
   decades 0x70 4 (-3) "°F" "Cold / Warm Temperature Limit";
   decades 0x74 4 (-3) "°C" "Cold / Warm Temperature Limit";
   decades 0x78 8 (-3) "W" "Cumul count max power"].

(** Units of the fixed data structure (6 bits). Not listed: 00, 01 (times and dates), 3A-3D reserved. *)
Definition fixed_unit : Z -> option meaning := first
  [decades 0x02 9 0 "Wh" "Energy";
   decades 0x0B 9 3 "J" "Energy";
   decades 0x14 9 0 "W" "Power";
   decades 0x1D 9 3 "J/h" "Power";
   decades 0x26 9 (-6) "m^3" "Volume";
   decades 0x2F 9 (-6) "m^3/h" "Volume flow";
   decades 0x38 1 (-3) "°C" "Temperature";
   single 0x39 "Units for H.C.A." "H.C.A.";
   single 0x3E "" "historic";
   single 0x3F "" "No units"].

(** A decimal multiple in front of a unit: the text and its exponent. *)
Inductive multiple : list Z -> Z -> Prop :=
| mu_one : multiple [] 0
| mu_text s e : In (s, e) [("m", -3); ("10 m", -2); ("100 m", -1); ("my", -6); ("10 ", 1); ("100 ", 2); ("k", 3); ("10 k", 4); ("100 k", 5); ("M", 6); ("10 M", 7); ("100 M", 8);
                           ("G", 9); ("10 G", 10); ("100 G", 11)]%string -> multiple (cstr s) e
| mu_power s e : read_int s = Some e -> multiple (cstr "1e" ++ s ++ cstr " ") e.

(** The unit information of a record: VIF FD and FB take the code from the first VIFE, other VIFs from their 7 bits. *)
Definition vib_meaning (vif vife0 : Z) : option meaning :=
  if vif =? 0xFD then fd_vif (vife0 mod 128)
  else if vif =? 0xFB then fb_vif (vife0 mod 128)
  else main_vif (vif mod 128).
(** Combinable extension (first VIFE of a VIF other than FD and FB): a multiplicative correction 10^(n-6) for 70-77,
    10^3 for 7D. *)
Definition correction (vif vife0 : Z) : Q :=
  let c := vife0 mod 128 in
  if (vif <? 128) || (vif =? 0xFD) || (vif =? 0xFB) then 1
  else if (0x70 <=? c) && (c <=? 0x77) then ten (c - 0x70 - 6)
  else if c =? 0x7D then ten 3
  else 1.
(** ... and an additive one, 10^(n-3), for 78-7B. *)
Definition offset (vif vife0 : Z) : Q :=
  let c := vife0 mod 128 in
  if (vif <? 128) || (vif =? 0xFD) || (vif =? 0xFB) then 0
  else if (0x78 <=? c) && (c <=? 0x7B) then ten (c - 0x78 - 3)
  else 0.

(** A number computed with doubles for p + off: exact up to the rounding of a few operations, 2^-50 relative to the
    terms. *)
Definition accurate (p off y : Q) : Prop := (Qabs (y - (p + off)) <= (Qabs p + Qabs off) * (1 # 1125899906842624))%Q.
(** [y] is x times f plus off; infinities and not-a-number stay what they are. *)
Definition scales (x : real) (f off : Q) (y : real) : Prop :=
  match x, y with
  | Num q, Num r => accurate (q * f) off r
  | NonFinite s n, NonFinite s' n' => n = n' /\ (n = false -> s = s')
  | _, _ => False
  end.

(** Texts of the units of the fixed data structure: a multiple of a unit; litres are 10^-3 m^3. *)
Definition fixed_bases : list (list Z * Z * list Z) :=
  [(cstr "Wh", 0, cstr "Wh"); (cstr "J", 0, cstr "J"); (cstr "W", 0, cstr "W"); (cstr "J/h", 0, cstr "J/h");
   (cstr "l", -3, cstr "m^3"); (cstr "m^3", 0, cstr "m^3"); (cstr "l/h", -3, cstr "m^3/h"); (cstr "m^3/h", 0, cstr "m^3/h");
   (cstr "°C", 0, cstr "°C")].
Definition fixed_text (t : list Z) (factor : Q) (unit : list Z) : Prop :=
  exists s e b be, t = s ++ b /\ multiple s e /\ In (b, be, unit) fixed_bases /\ (factor == ten (e + be))%Q.

(** Texts of the main table: a name, in parentheses a multiple of a unit. *)
Definition main_bases : list (list Z * list Z) :=
  [(cstr "Wh", cstr "Wh"); (cstr "J", cstr "J"); (cstr " m^3", cstr "m^3"); (cstr "kg", cstr "kg"); (cstr "W", cstr "W"); (cstr "J/h", cstr "J/h");
   (cstr " m^3/h", cstr "m^3/h"); (cstr " m^3/min", cstr "m^3/min"); (cstr " m^3/s", cstr "m^3/s"); (cstr " kg/h", cstr "kg/h");
   (cstr "deg C", cstr "°C"); (cstr " deg C", cstr "°C"); (cstr " deg C", cstr "K"); (cstr " bar", cstr "bar")].
Definition main_text (t : list Z) (factor : Q) (unit : list Z) : Prop :=
  exists name s e b, t = name ++ cstr " (" ++ s ++ b ++ cstr ")" /\ multiple s e /\ In (b, unit) main_bases /\ (factor == ten e)%Q.
(** The codes of the main table that are decimal multiples of a unit. *)
Definition scaled (code : Z) : Prop := 0 <= code <= 0x1F \/ 0x28 <= code <= 0x6B.
