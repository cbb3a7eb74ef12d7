(** Specification of unit texts: how a reader understands the text shown for the unit of a record. *)
From Coq Require Import String.
From Coq Require Import List.
From Coq Require Import QArith.
From Verif Require Import CBase CStr SText SUnit.
Local Open Scope Z_scope.

Fixpoint same (s t : list Z) : bool :=
  match s, t with
  | [], [] => true
  | x :: s', y :: t' => if x =? y then same s' t' else false
  | _, _ => false
  end.
(** What follows the text [p], if [t] begins with it. *)
Fixpoint after (p t : list Z) : option (list Z) :=
  match p, t with
  | [], _ => Some t
  | x :: p', y :: t' => if x =? y then after p' t' else None
  | _ :: _, [] => None
  end.
(** What precedes the text [p], if [t] ends with it. *)
Definition before (p t : list Z) : option (list Z) :=
  match after (rev p) (rev t) with Some r => Some (rev r) | None => None end.
(** The parts before and after the first blank. *)
Fixpoint split_blank (t : list Z) : list Z * list Z :=
  match t with
  | [] => ([], [])
  | c :: t' => if c =? 32 then ([], t') else let (a, b) := split_blank t' in (c :: a, b)
  end.
Fixpoint drop_blanks (t : list Z) : list Z :=
  match t with [] => [] | c :: t' => if c =? 32 then drop_blanks t' else t end.
Fixpoint look {A} (tab : list (string * A)) (t : list Z) : option A :=
  match tab with [] => None | (s, a) :: tab' => if same (cstr s) t then Some a else look tab' t end.
(** The name before the opening parenthesis and the text inside, for a text that ends with a parenthesis. *)
Fixpoint parenthesis (t : list Z) : option (list Z * list Z) :=
  match t with
  | [] => None
  | 32 :: 40 :: r => match before (cstr ")") r with Some i => Some ([], i) | None => None end
  | c :: t' => match parenthesis t' with Some (n, i) => Some (c :: n, i) | None => None end
  end.

(** Names of units: the base unit and the factor to it. *)
Definition unit_names : list (string * (Q * string)) :=
  [("Wh", (1, "Wh")); ("J", (1, "J")); ("m^3", (1, "m^3")); ("m3", (1, "m^3")); ("kg", (1, "kg")); ("t", (1000, "kg"));
   ("W", (1, "W")); ("J/h", (1, "J/h")); ("m^3/h", (1, "m^3/h")); ("m^3/min", (1, "m^3/min")); ("m^3/s", (1, "m^3/s"));
   ("kg/h", (1, "kg/h")); ("deg C", (1, "°C")); ("degree C", (1, "°C")); ("degree F", (1, "°F")); ("bar", (1, "bar"));
   ("feet^3", (1, "feet^3")); ("american gallon", (1, "American gallon")); ("american gallon/min", (1, "American gallon/min"));
   ("american gallon/h", (1, "American gallon/h")); ("V", (1, "V")); ("A", (1, "A"))]%string%Q.
(** Decimal multiples: number words, prefixes (my for micro), a power of ten. *)
Definition multiples : list (string * Z) :=
  [("", 0); ("m", -3); ("my", -6); ("k", 3); ("M", 6); ("G", 9); ("10 ", 1); ("100 ", 2); ("10 k", 4); ("100 k", 5);
   ("0.1 ", -1); ("0.001 ", -3); ("0.1 M", 5); ("0.1 G", 8)]%string.
Fixpoint read_multiple (tab : list (string * Z)) (t : list Z) : option (Q * list Z) :=
  match tab with
  | [] => None
  | (s, e) :: tab' =>
      match after (cstr s) t with
      | Some r => match look unit_names (drop_blanks r) with
                  | Some (f, u) => Some (ten e * f, cstr u)%Q
                  | None => read_multiple tab' t
                  end
      | None => read_multiple tab' t
      end
  end.
(** A multiple of a unit. *)
Definition read_unit (t : list Z) : option (Q * list Z) :=
  match after (cstr "1e") t with
  | Some r =>
      let (n, u) := split_blank r in
      match read_int n, look unit_names (drop_blanks u) with
      | Some e, Some (f, u) => Some (ten e * f, cstr u)%Q
      | _, _ => None
      end
  | None => read_multiple multiples t
  end.

(** Names of quantities whose unit follows in parentheses. *)
Definition quantity_names : list (string * string) :=
  [("Energy", "Energy"); ("Volume", "Volume"); ("Mass", "Mass"); ("Power", "Power"); ("Volume flow", "Volume flow"); ("Mass flow", "Mass flow");
   ("Flow temperature", "Flow temperature"); ("Flow Temperature", "Flow temperature"); ("Return temperature", "Return temperature");
   ("Return Temperature", "Return temperature"); ("External temperature", "External temperature"); ("External Temperature", "External temperature");
   ("Temperature Difference", "Temperature difference"); ("Pressure", "Pressure"); ("On time", "On time"); ("Operating time", "Operating time");
   ("Averaging Duration", "Averaging Duration"); ("Actuality Duration", "Actuality Duration");
   ("Cold / Warm Temperature Limit", "Cold / Warm Temperature Limit"); ("cumul. count max power", "Cumul count max power")]%string.
Definition time_names : list (string * Q) :=
  [("seconds", 1); ("minutes", 60); ("hours", 3600); ("days", 86400)]%string%Q.
(** A difference of Celsius temperatures is in kelvin. *)
Definition kelvin (q u : list Z) : list Z := if same q (cstr "Temperature difference") && same u (cstr "°C") then cstr "K" else u.
Definition read_parenthesis (t : list Z) : option meaning :=
  match parenthesis t with
  | Some (n, i) =>
      match look quantity_names n with
      | Some q =>
          match look time_names i with
          | Some f => Some (mkM f (cstr "s") (cstr q))
          | None => match read_unit i with Some (f, u) => Some (mkM f (kelvin (cstr q) u) (cstr q)) | None => None end
          end
      | None => None
      end
  | None => None
  end.

(** Durations of the extension tables: a name followed by the time unit. *)
Definition duration_units : list (string * Q) :=
  [(" second(s)", 1); (" minute(s)", 60); (" hour(s)", 3600); (" day(s)", 86400); (" month(s)", month); (" months(s)", month); (" year(s)", year)]%string%Q.
Definition duration_names : list string :=
  ["Storage interval"; "Duration since last readout"; "Duration of tariff"; "Period of tariff"; "Duration since last cumulation"; "Operating time battery"]%string.
Fixpoint read_duration (tab : list (string * Q)) (t : list Z) : option meaning :=
  match tab with
  | [] => None
  | (s, f) :: tab' =>
      match before (cstr s) t with
      | Some n => match look (map (fun x => (x, x)) duration_names) n with Some q => Some (mkM f (cstr "s") (cstr q)) | None => None end
      | None => read_duration tab' t
      end
  end.
(** Currency: credit or debit of a multiple of the local currency unit. *)
Definition read_currency (word : string) (t : list Z) : option meaning :=
  match after (cstr word ++ cstr " of ") t with
  | Some r =>
      match before (cstr " of the nominal local legal currency units") r with
      | Some n =>
          match after (cstr "1e") n with
          | Some p => let (k, _) := split_blank p in
                      match read_int k with Some e => Some (mkM (ten e) (cstr "Currency units") (cstr word)) | None => None end
          | None => match look multiples n with Some e => Some (mkM (ten e) (cstr "Currency units") (cstr word)) | None => None end
          end
      | None => None
      end
  | None => None
  end.
(** Bare multiples of volts and amperes. *)
Definition read_electric (t : list Z) : option meaning :=
  match read_unit t with
  | Some (f, u) => if same u (cstr "V") then Some (mkM f u (cstr "Voltage")) else if same u (cstr "A") then Some (mkM f u (cstr "Current")) else None
  | None => None
  end.
(** Texts that only name a quantity: unit and name used in normalised records. *)
Definition plain_names : list (string * (string * string)) :=
  [("Time Point (date)", ("-", "Time point (date)")); ("Time Point (time & date)", ("-", "Time point (date & time)"));
   ("Units for H.C.A.", ("Units for H.C.A.", "H.C.A.")); ("Fabrication number", ("", "Fabrication No")); ("Bus Address", ("", "Bus Address"));
   ("Manufacturer specific", ("", "Manufacturer specific"));
   ("Access Number (transmission count)", ("", "Access Number (transmission count)")); ("Medium (as in fixed header)", ("", "Medium"));
   ("Manufacturer (as in fixed header)", ("", "Manufacturer")); ("Parameter set identification", ("", "Parameter set identification"));
   ("Model / Version", ("", "Model / Version")); ("Hardware version", ("", "Hardware version")); ("Firmware version", ("", "Firmware version"));
   ("Software version", ("", "Software version")); ("Customer location", ("", "Customer location")); ("Customer", ("", "Customer"));
   ("Access Code User", ("", "Access Code User")); ("Access Code Operator", ("", "Access Code Operator"));
   ("Access Code System Operator", ("", "Access Code System Operator")); ("Access Code Developer", ("", "Access Code Developer"));
   ("Password", ("", "Password")); ("Error flags", ("", "Error flags")); ("Error mask", ("", "Error mask"));
   ("Digital output (binary)", ("", "Digital Output")); ("Digital input (binary)", ("", "Digital Input"));
   ("Baudrate", ("Baud", "Baudrate")); ("response delay time", ("Bittimes", "Response delay time")); ("Retry", ("", "Retry"));
   ("First storage # for cyclic storage", ("", "First storage # for cyclic storage")); ("Last storage # for cyclic storage", ("", "Last storage # for cyclic storage"));
   ("Size of storage block", ("", "Size of storage block")); ("Start (date/time) of tariff", ("-", "Start of tariff"));
   ("dimensionless / no VIF", ("", "Dimensionless")); ("Reset counter", ("", "Reset counter")); ("Cumulation counter", ("", "Cumulation counter"));
   ("Control signal", ("", "Control signal")); ("Day of week", ("", "Day of week")); ("Week number", ("", "Week number"));
   ("Time point of day change", ("", "Time point of day change")); ("State of parameter activation", ("", "State of parameter activation"));
   ("Special supplier information", ("", "Special supplier information")); ("Date and time of battery change", ("", "Date and time of battery change"))]%string.

Definition either (a b : option meaning) : option meaning := match a with Some m => Some m | None => b end.
(** What a unit text says: factor, base unit, quantity. *)
Definition read_unit_text (t : list Z) : option meaning :=
  match look plain_names t with
  | Some (u, q) => Some (mkM 1 (cstr u) (cstr q))
  | None =>
      either (read_parenthesis t) (either (read_duration duration_units t)
        (either (read_currency "Credit" t) (either (read_currency "Debit" t) (read_electric t))))
  end.
(** The text says what is meant. *)
Definition says (t : list Z) (m : meaning) : Prop :=
  exists m', read_unit_text t = Some m' /\ (m_factor m' == m_factor m)%Q /\ m_unit m' = m_unit m /\ m_quantity m' = m_quantity m.
