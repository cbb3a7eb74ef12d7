(** Specification of the names of device types, error codes and counters (EN 13757-3), in the order of the codes. *)
From Coq Require Import String.
From Coq Require Import List.
From Verif Require Import CBase CStr SText.
Local Open Scope Z_scope.

(** Device types 00 to 1C and the assigned ones above. *)
Definition device_names : list string :=
  ["Other"; "Oil"; "Electricity"; "Gas"; "Heat: Outlet"; "Steam"; "Warm water (30-90°C)"; "Water"; "Heat Cost Allocator"; "Compressed Air";
   "Cooling load meter: Outlet"; "Cooling load meter: Inlet"; "Heat: Inlet"; "Heat / Cooling load meter"; "Bus/System"; "Unknown Medium";
   "Irrigation Water"; "Water Logger"; "Gas Logger"; "Gas Converter"; "Calorific value"; "Hot water (>90°C)"; "Cold water"; "Dual water";
   "Pressure"; "A/D Converter"; "Smoke Detector"; "Ambient Sensor"; "Gas Detector"]%string.
Definition device_name (code : Z) : option string :=
  if (0 <=? code) && (code <? 0x1D) then nth_error device_names (Z.to_nat code)
  else if code =? 0x20 then Some "Breaker: Electricity"%string
  else if code =? 0x21 then Some "Valve: Gas or Water"%string
  else if code =? 0x25 then Some "Customer Unit: Display Device"%string
  else if code =? 0x28 then Some "Waste Water"%string
  else if code =? 0x29 then Some "Garbage"%string
  else if code =? 0x30 then Some "Service Unit"%string
  else if code =? 0x36 then Some "Radio Converter: System"%string
  else if code =? 0x37 then Some "Radio Converter: Meter"%string
  else None.
(** Application errors 0 to 9. *)
Definition error_names : list string :=
  ["Unspecified error"; "Unimplemented CI-Field"; "Buffer too long, truncated"; "Too many records"; "Premature end of record";
   "More than 10 DIFE´s"; "More than 10 VIFE´s"; "Reserved"; "Application busy"; "Too many readouts"]%string.
(** Media of the fixed data structure. *)
Definition fixed_media : list string :=
  ["Other"; "Oil"; "Electricity"; "Gas"; "Heat"; "Steam"; "Hot Water"; "Water"; "H.C.A."; "Reserved";
   "Gas Mode 2"; "Heat Mode 2"; "Hot Water Mode 2"; "Water Mode 2"; "H.C.A. Mode 2"; "Reserved"]%string.
(** The medium code of the fixed data structure: two bits of each unit byte. *)
Definition fixed_medium_code (type1 type2 : Z) : Z := type1 / 64 + 4 * (type2 / 64).
(** A text that says that the code is unknown and gives it in two hexadecimal digits. *)
Definition unknown_code (intro : string) (code : Z) (t : list Z) : Prop :=
  exists d1 d2, t = cstr intro ++ [d1; d2] ++ cstr ")" /\ read_nat 16 [d1; d2] = Some code.
