(** Model of the text functions of mbus/mbus-protocol.c: number formatting, look-up tables, units, values. No proofs here. *)
From Coq Require Import String Ascii.
From Verif Require Import CBase CStr MFrame MCodec MVar.

(** A C switch over constants whose cases only choose a text. *)
Fixpoint switch (k : Z) (tab : list (Z * list Z)) (dflt : list Z) : list Z :=
  match tab with [] => dflt | (a, t) :: tab' => if k =? a then t else switch k tab' dflt end.

(** The text of a C array: up to the terminator. *)
Fixpoint c_text (l : list Z) : list Z :=
  match l with [] => [] | c :: t => if c =? 0 then [] else c :: c_text t end.

(** ** printf conversions (C library). *)
Definition hex_lower (n : Z) : Z := if n <? 10 then 48 + n else 87 + n.
(** The digits of [n >= 0], least significant first; zero has one digit. *)
Fixpoint digits_rev (fuel : nat) (base n : Z) : list Z :=
  match fuel with
  | O => []
  | S k => n mod base :: (if n <? base then [] else digits_rev k base (n / base))
  end.
Definition fmt_digits (digit : Z -> Z) (base n : Z) : list Z :=
  List.map digit (rev (digits_rev (S (Z.to_nat (Z.log2 n))) base n)).
(** %u / %X / %x *)
Definition fmt_u (n : Z) : list Z := fmt_digits hex_upper 10 n.
Definition fmt_X (n : Z) : list Z := fmt_digits hex_upper 16 n.
Definition fmt_x (n : Z) : list Z := fmt_digits hex_lower 16 n.
(** %d, %ld, %lld *)
Definition fmt_d (z : Z) : list Z := if z <? 0 then 45 :: fmt_u (- z) else fmt_u z.
(** Zero padding to a width / precision (the numbers padded here are not negative). *)
Definition zpad (w : nat) (l : list Z) : list Z := repeat 48 (w - List.length l) ++ l.
(** %02d, %04d; %.2X, %.2x *)
Definition fmt_02d (z : Z) := zpad 2 (fmt_d z).
Definition fmt_04d (z : Z) := zpad 4 (fmt_d z).
Definition fmt_X2 (n : Z) := zpad 2 (fmt_X n).
Definition fmt_x2 (n : Z) := zpad 2 (fmt_x n).

(** Quotient rounded to nearest, ties to even. *)
Definition round_div (a b : Z) : Z :=
  let q := a / b in let r := a mod b in
  if 2 * r <? b then q else if b <? 2 * r then q + 1 else if Z.even q then q else q + 1.
(** %f of the float with these 32 bits (converted to double exactly). Six decimals, correctly rounded, as glibc
    prints it in the default rounding mode. *)
Definition fmt_f (bits : Z) : list Z :=
  let sign := Z.shiftr bits 31 in
  let e := Z.land (Z.shiftr bits 23) 0xFF in
  let m := Z.land bits 0x7FFFFF in
  (if sign =? 0 then [] else [45]) ++
  (if e =? 255 then (if m =? 0 then cstr "inf" else cstr "nan")
   else
     let sig := if e =? 0 then m else m + 2 ^ 23 in
     let ex := if e =? 0 then -149 else e - 150 in
     let n := if 0 <=? ex then sig * 10 ^ 6 * 2 ^ ex else round_div (sig * 10 ^ 6) (2 ^ (- ex)) in
     fmt_u (n / 10 ^ 6) ++ 46 :: zpad 6 (fmt_u (n mod 10 ^ 6))).

(** mbus-protocol.c 1399-1465: the cases of [mbus_data_fixed_medium]. *)
Definition fixed_medium_tab : list (Z * list Z) :=
  [(0x00, cstr "Other");
   (0x01, cstr "Oil");
   (0x02, cstr "Electricity");
   (0x03, cstr "Gas");
   (0x04, cstr "Heat");
   (0x05, cstr "Steam");
   (0x06, cstr "Hot Water");
   (0x07, cstr "Water");
   (0x08, cstr "H.C.A.");
   (0x09, cstr "Reserved");
   (0x0A, cstr "Gas Mode 2");
   (0x0B, cstr "Heat Mode 2");
   (0x0C, cstr "Hot Water Mode 2");
   (0x0D, cstr "Water Mode 2");
   (0x0E, cstr "H.C.A. Mode 2");
   (0x0F, cstr "Reserved")].

(** mbus-protocol.c 1510-1716: the cases of [mbus_data_fixed_unit]. *)
Definition fixed_unit_tab : list (Z * list Z) :=
  [(0x00, cstr "h,m,s");
   (0x01, cstr "D,M,Y");
   (0x02, cstr "Wh");
   (0x03, cstr "10 Wh");
   (0x04, cstr "100 Wh");
   (0x05, cstr "kWh");
   (0x06, cstr "10 kWh");
   (0x07, cstr "100 kWh");
   (0x08, cstr "MWh");
   (0x09, cstr "10 MWh");
   (0x0A, cstr "100 MWh");
   (0x0B, cstr "kJ");
   (0x0C, cstr "10 kJ");
   (0x0E, cstr "100 kJ");
   (0x0D, cstr "MJ");
   (0x0F, cstr "10 MJ");
   (0x10, cstr "100 MJ");
   (0x11, cstr "GJ");
   (0x12, cstr "10 GJ");
   (0x13, cstr "100 GJ");
   (0x14, cstr "W");
   (0x15, cstr "10 W");
   (0x16, cstr "100 W");
   (0x17, cstr "kW");
   (0x18, cstr "10 kW");
   (0x19, cstr "100 kW");
   (0x1A, cstr "MW");
   (0x1B, cstr "10 MW");
   (0x1C, cstr "100 MW");
   (0x1D, cstr "kJ/h");
   (0x1E, cstr "10 kJ/h");
   (0x1F, cstr "100 kJ/h");
   (0x20, cstr "MJ/h");
   (0x21, cstr "10 MJ/h");
   (0x22, cstr "100 MJ/h");
   (0x23, cstr "GJ/h");
   (0x24, cstr "10 GJ/h");
   (0x25, cstr "100 GJ/h");
   (0x26, cstr "ml");
   (0x27, cstr "10 ml");
   (0x28, cstr "100 ml");
   (0x29, cstr "l");
   (0x2A, cstr "10 l");
   (0x2B, cstr "100 l");
   (0x2C, cstr "m^3");
   (0x2D, cstr "10 m^3");
   (0x2E, cstr "100 m^3");
   (0x2F, cstr "ml/h");
   (0x30, cstr "10 ml/h");
   (0x31, cstr "100 ml/h");
   (0x32, cstr "l/h");
   (0x33, cstr "10 l/h");
   (0x34, cstr "100 l/h");
   (0x35, cstr "m^3/h");
   (0x36, cstr "10 m^3/h");
   (0x37, cstr "100 m^3/h");
   (0x38, cstr "1e-3 °C");
   (0x39, cstr "units for HCA");
   (0x3A, cstr "reserved");
   (0x3B, cstr "reserved");
   (0x3C, cstr "reserved");
   (0x3D, cstr "reserved");
   (0x3E, cstr "reserved but historic");
   (0x3F, cstr "without units")].

(** mbus-protocol.c 1782-1971: the cases of [mbus_data_variable_medium_lookup]. *)
Definition medium_tab : list (Z * list Z) :=
  [(0x00, cstr "Other");
   (0x01, cstr "Oil");
   (0x02, cstr "Electricity");
   (0x03, cstr "Gas");
   (0x04, cstr "Heat: Outlet");
   (0x05, cstr "Steam");
   (0x06, cstr "Warm water (30-90°C)");
   (0x07, cstr "Water");
   (0x08, cstr "Heat Cost Allocator");
   (0x09, cstr "Compressed Air");
   (0x0A, cstr "Cooling load meter: Outlet");
   (0x0B, cstr "Cooling load meter: Inlet");
   (0x0C, cstr "Heat: Inlet");
   (0x0D, cstr "Heat / Cooling load meter");
   (0x0E, cstr "Bus/System");
   (0x0F, cstr "Unknown Medium");
   (0x10, cstr "Irrigation Water");
   (0x11, cstr "Water Logger");
   (0x12, cstr "Gas Logger");
   (0x13, cstr "Gas Converter");
   (0x14, cstr "Calorific value");
   (0x15, cstr "Hot water (>90°C)");
   (0x16, cstr "Cold water");
   (0x17, cstr "Dual water");
   (0x18, cstr "Pressure");
   (0x19, cstr "A/D Converter");
   (0x1A, cstr "Smoke Detector");
   (0x1B, cstr "Ambient Sensor");
   (0x1C, cstr "Gas Detector");
   (0x20, cstr "Breaker: Electricity");
   (0x21, cstr "Valve: Gas or Water");
   (0x25, cstr "Customer Unit: Display Device");
   (0x28, cstr "Waste Water");
   (0x29, cstr "Garbage");
   (0x30, cstr "Service Unit");
   (0x36, cstr "Radio Converter: System");
   (0x37, cstr "Radio Converter: Meter");
   (0x22, cstr "Reserved");
   (0x23, cstr "Reserved");
   (0x24, cstr "Reserved");
   (0x26, cstr "Reserved");
   (0x27, cstr "Reserved");
   (0x2A, cstr "Reserved");
   (0x2B, cstr "Reserved");
   (0x2C, cstr "Reserved");
   (0x2D, cstr "Reserved");
   (0x2E, cstr "Reserved");
   (0x2F, cstr "Reserved");
   (0x31, cstr "Reserved");
   (0x32, cstr "Reserved");
   (0x33, cstr "Reserved");
   (0x34, cstr "Reserved");
   (0x38, cstr "Reserved");
   (0x39, cstr "Reserved");
   (0x3A, cstr "Reserved");
   (0x3B, cstr "Reserved");
   (0x3C, cstr "Reserved");
   (0x3D, cstr "Reserved");
   (0x3E, cstr "Reserved");
   (0x3F, cstr "Reserved")].

(** mbus-protocol.c 2416-2469: the cases of [mbus_data_error_lookup]. *)
Definition error_tab : list (Z * list Z) :=
  [(0x00, cstr "Unspecified error");
   (0x01, cstr "Unimplemented CI-Field");
   (0x02, cstr "Buffer too long, truncated");
   (0x03, cstr "Too many records");
   (0x04, cstr "Premature end of record");
   (0x05, cstr "More than 10 DIFE´s");
   (0x06, cstr "More than 10 VIFE´s");
   (0x07, cstr "Reserved");
   (0x08, cstr "Application busy");
   (0x09, cstr "Too many readouts")].

(** mbus-protocol.c 916-1366 [mbus_data_product_name]: the chain of comparisons; every name is shorter than the
    128-byte buffer. *)
Definition product_name (m version medium id3 : Z) : list Z :=
  if (m =? mbus_manufacturer_id (cstr "ABB")) then
    switch version [(0x02, cstr "ABB Delta-Meter"); (0x20, cstr "ABB B21 113-100")] []
  else
  if (m =? mbus_manufacturer_id (cstr "ACW")) then
    switch version [(0x09, cstr "Itron CF Echo 2"); (0x0A, cstr "Itron CF 51"); (0x0B, cstr "Itron CF 55"); (0x0E, cstr "Itron BM +m"); (0x0F, cstr "Itron CF 800"); (0x14, cstr "Itron CYBLE M-Bus 1.4")] []
  else
  if (m =? mbus_manufacturer_id (cstr "AMT")) then
    (if 0xC0 <=? version then cstr "Aquametro CALEC ST" else if 0x80 <=? version then cstr "Aquametro CALEC MB" else if 0x40 <=? version then cstr "Aquametro SAPHIR" else cstr "Aquametro AMTRON")
  else
  if (m =? mbus_manufacturer_id (cstr "BEC")) then
    (if medium =? 0x02 then switch version [(0x00, cstr "Berg DCMi"); (0x07, cstr "Berg BLMi")] [] else (if medium =? 0x0F then switch version [(0x71, cstr "Berg BMB-10S0")] [] else []))
  else
  if (m =? mbus_manufacturer_id (cstr "EFE")) then
    switch version [(0x00, if medium =? 0x06 then cstr "Engelmann WaterStar" else cstr "Engelmann / Elster SensoStar 2"); (0x01, cstr "Engelmann SensoStar 2C")] []
  else
  if (m =? mbus_manufacturer_id (cstr "ELS")) then
    switch version [(0x02, cstr "Elster TMP-A"); (0x0A, cstr "Elster Falcon"); (0x2F, cstr "Elster F96 Plus")] []
  else
  if (m =? mbus_manufacturer_id (cstr "ELV")) then
    switch version [(0x14, cstr "Elvaco CMa10"); (0x15, cstr "Elvaco CMa10"); (0x16, cstr "Elvaco CMa10"); (0x17, cstr "Elvaco CMa10"); (0x18, cstr "Elvaco CMa10"); (0x19, cstr "Elvaco CMa10"); (0x1A, cstr "Elvaco CMa10"); (0x1B, cstr "Elvaco CMa10"); (0x1C, cstr "Elvaco CMa10"); (0x1D, cstr "Elvaco CMa10"); (0x32, cstr "Elvaco CMa11"); (0x33, cstr "Elvaco CMa11"); (0x34, cstr "Elvaco CMa11"); (0x35, cstr "Elvaco CMa11"); (0x36, cstr "Elvaco CMa11"); (0x37, cstr "Elvaco CMa11"); (0x38, cstr "Elvaco CMa11"); (0x39, cstr "Elvaco CMa11"); (0x3A, cstr "Elvaco CMa11"); (0x3B, cstr "Elvaco CMa11")] []
  else
  if (m =? mbus_manufacturer_id (cstr "EMH")) then
    switch version [(0x00, cstr "EMH DIZ")] []
  else
  if (m =? mbus_manufacturer_id (cstr "EMU")) then
    (if medium =? 0x02 then switch version [(0x10, cstr "EMU Professional 3/75 M-Bus")] [] else [])
  else
  if (m =? mbus_manufacturer_id (cstr "GAV")) then
    (if medium =? 0x02 then switch version [(0x2D, cstr "Carlo Gavazzi EM24"); (0x2E, cstr "Carlo Gavazzi EM24"); (0x2F, cstr "Carlo Gavazzi EM24"); (0x30, cstr "Carlo Gavazzi EM24"); (0x39, cstr "Carlo Gavazzi EM21"); (0x3A, cstr "Carlo Gavazzi EM21"); (0x40, cstr "Carlo Gavazzi EM33")] [] else [])
  else
  if (m =? mbus_manufacturer_id (cstr "GMC")) then
    switch version [(0xE6, cstr "GMC-I A230 EMMOD 206")] []
  else
  if (m =? mbus_manufacturer_id (cstr "KAM")) then
    switch version [(0x01, cstr "Kamstrup 382 (6850-005)"); (0x08, cstr "Kamstrup Multical 601")] []
  else
  if (m =? mbus_manufacturer_id (cstr "SLB")) then
    switch version [(0x02, cstr "Allmess Megacontrol CF-50"); (0x06, cstr "CF Compact / Integral MK MaXX")] []
  else
  if (m =? mbus_manufacturer_id (cstr "HYD")) then
    switch version [(0x28, cstr "ABB F95 Typ US770"); (0x2F, cstr "Hydrometer Sharky 775")] []
  else
  if (m =? mbus_manufacturer_id (cstr "JAN")) then
    (if medium =? 0x02 then switch version [(0x09, cstr "Janitza UMG 96S")] [] else [])
  else
  if (m =? mbus_manufacturer_id (cstr "LUG")) then
    switch version [(0x02, cstr "Landis & Gyr Ultraheat 2WR5"); (0x03, cstr "Landis & Gyr Ultraheat 2WR6"); (0x04, cstr "Landis & Gyr Ultraheat UH50"); (0x07, cstr "Landis & Gyr Ultraheat T230")] []
  else
  if (m =? mbus_manufacturer_id (cstr "LSE")) then
    switch version [(0x99, cstr "Siemens WFH21")] []
  else
  if (m =? mbus_manufacturer_id (cstr "NZR")) then
    switch version [(0x01, cstr "NZR DHZ 5/63"); (0x50, cstr "NZR IC-M2")] []
  else
  if (m =? mbus_manufacturer_id (cstr "RAM")) then
    switch version [(0x03, cstr "Rossweiner ETK/ETW Modularis")] []
  else
  if (m =? mbus_manufacturer_id (cstr "REL")) then
    switch version [(0x08, cstr "Relay PadPuls M1"); (0x12, cstr "Relay PadPuls M4"); (0x20, cstr "Relay Padin 4"); (0x30, cstr "Relay AnDi 4"); (0x40, cstr "Relay PadPuls M2")] []
  else
  if (m =? mbus_manufacturer_id (cstr "RKE")) then
    switch version [(0x69, cstr "Ista sensonic II mbus")] []
  else
  if (m =? mbus_manufacturer_id (cstr "SBC")) then
    switch id3 [(0x10, cstr "Saia-Burgess ALE3"); (0x19, cstr "Saia-Burgess ALE3"); (0x11, cstr "Saia-Burgess AWD3")] []
  else
  if (m =? mbus_manufacturer_id (cstr "SEO")) || (m =? mbus_manufacturer_id (cstr "GTE")) then
    switch id3 [(0x30, cstr "Sensoco PT100"); (0x41, cstr "Sensoco 2-NTC"); (0x45, cstr "Sensoco Laser Light"); (0x48, cstr "Sensoco ADIO"); (0x51, cstr "Sensoco THU"); (0x61, cstr "Sensoco THU"); (0x80, cstr "Sensoco PulseCounter for E-Meter")] []
  else
  if (m =? mbus_manufacturer_id (cstr "SEN")) then
    switch version [(0x08, cstr "Sensus PolluCom E"); (0x19, cstr "Sensus PolluCom E"); (0x0B, cstr "Sensus PolluTherm"); (0x0E, cstr "Sensus PolluStat E")] []
  else
  if (m =? mbus_manufacturer_id (cstr "SON")) then
    switch version [(0x0D, cstr "Sontex Supercal 531")] []
  else
  if (m =? mbus_manufacturer_id (cstr "SPX")) then
    switch version [(0x31, cstr "Sensus PolluTherm"); (0x34, cstr "Sensus PolluTherm")] []
  else
  if (m =? mbus_manufacturer_id (cstr "SVM")) then
    switch version [(0x08, cstr "Elster F2 / Deltamess F2"); (0x09, cstr "Elster F4 / Kamstrup SVM F22")] []
  else
  if (m =? mbus_manufacturer_id (cstr "TCH")) then
    switch version [(0x26, cstr "Techem m-bus S"); (0x40, cstr "Techem ultra S3")] []
  else
  if (m =? mbus_manufacturer_id (cstr "WZG")) then
    switch version [(0x03, cstr "Modularis ETW-EAX")] []
  else
  if (m =? mbus_manufacturer_id (cstr "ZRM")) then
    switch version [(0x81, cstr "Minol Minocal C2"); (0x82, cstr "Minol Minocal WR3")] []
  else
  [].

(** mbus-protocol.c 1398-1465 [mbus_data_fixed_medium] on the two unit bytes. *)
Definition mbus_data_fixed_medium (x : dfix) : list Z :=
  switch (Z.lor (Z.shiftr (Z.land (x_type1 x) 0xC0) 6) (Z.shiftr (Z.land (x_type2 x) 0xC0) 4)) fixed_medium_tab (cstr "unknown").
(** mbus-protocol.c 1509-1716 [mbus_data_fixed_unit]. *)
Definition mbus_data_fixed_unit (b : Z) : list Z := switch (Z.land b 0x3F) fixed_unit_tab (cstr "unknown").
(** mbus-protocol.c 1781-1971 [mbus_data_variable_medium_lookup]. *)
Definition mbus_data_variable_medium_lookup (m : Z) : list Z :=
  switch m medium_tab (cstr "Unknown medium (0x" ++ fmt_x2 m ++ cstr ")").
(** mbus-protocol.c 2416-2469 [mbus_data_error_lookup] (error comes from one byte). *)
Definition mbus_data_error_lookup (e : Z) : list Z :=
  switch e error_tab (cstr "Unknown error (0x" ++ fmt_X2 e ++ cstr ")").
(** mbus-protocol.c 3566-3576 [mbus_data_fixed_function]. *)
Definition mbus_data_fixed_function (status : Z) : list Z :=
  if Z.land status 0x40 =? 0x40 then cstr "Stored value" else cstr "Actual value".
(** mbus-protocol.c 3527-3560 [mbus_data_record_function]. *)
Definition mbus_data_record_function (r : rec) : list Z :=
  switch (Z.land (r_dif r) 0x30)
    [(0x00, cstr "Instantaneous value"); (0x10, cstr "Maximum value"); (0x20, cstr "Minimum value");
     (0x30, cstr "Value during error state")] (cstr "unknown").

(** mbus-protocol.c 1978-2030 [mbus_unit_prefix]. *)
Definition mbus_unit_prefix (e : Z) : list Z :=
  switch e
    [(0, []); (-3, cstr "m"); (-6, cstr "my"); (1, cstr "10 "); (2, cstr "100 "); (3, cstr "k"); (4, cstr "10 k");
     (5, cstr "100 k"); (6, cstr "M"); (9, cstr "G")] (cstr "1e" ++ fmt_d e ++ cstr " ").

Definition between (lo hi x : Z) : bool := (lo <=? x) && (x <=? hi).

(** mbus-protocol.c 2088-2408 [mbus_vif_unit_lookup]; runs of case labels are ranges. *)
Definition mbus_vif_unit_lookup (vif : Z) : list Z :=
  let m := Z.land vif 0x7F in
  let n7 := Z.land vif 0x07 in
  let n3 := Z.land vif 0x03 in
  if between 0x00 0x07 m then cstr "Energy (" ++ mbus_unit_prefix (n7 - 3) ++ cstr "Wh)"
  else if between 0x08 0x0F m then cstr "Energy (" ++ mbus_unit_prefix n7 ++ cstr "J)"
  else if between 0x18 0x1F m then cstr "Mass (" ++ mbus_unit_prefix (n7 - 3) ++ cstr "kg)"
  else if between 0x28 0x2F m then cstr "Power (" ++ mbus_unit_prefix (n7 - 3) ++ cstr "W)"
  else if between 0x30 0x37 m then cstr "Power (" ++ mbus_unit_prefix n7 ++ cstr "J/h)"
  else if between 0x10 0x17 m then cstr "Volume (" ++ mbus_unit_prefix (n7 - 6) ++ cstr " m^3)"
  else if between 0x38 0x3F m then cstr "Volume flow (" ++ mbus_unit_prefix (n7 - 6) ++ cstr " m^3/h)"
  else if between 0x40 0x47 m then cstr "Volume flow (" ++ mbus_unit_prefix (n7 - 7) ++ cstr " m^3/min)"
  else if between 0x48 0x4F m then cstr "Volume flow (" ++ mbus_unit_prefix (n7 - 9) ++ cstr " m^3/s)"
  else if between 0x50 0x57 m then cstr "Mass flow (" ++ mbus_unit_prefix (n7 - 3) ++ cstr " kg/h)"
  else if between 0x58 0x5B m then cstr "Flow temperature (" ++ mbus_unit_prefix (n3 - 3) ++ cstr "deg C)"
  else if between 0x5C 0x5F m then cstr "Return temperature (" ++ mbus_unit_prefix (n3 - 3) ++ cstr "deg C)"
  else if between 0x68 0x6B m then cstr "Pressure (" ++ mbus_unit_prefix (n3 - 3) ++ cstr " bar)"
  else if between 0x20 0x23 m || between 0x24 0x27 m || between 0x70 0x73 m || between 0x74 0x77 m then
    (if Z.land vif 0x7C =? 0x20 then cstr "On time "
     else if Z.land vif 0x7C =? 0x24 then cstr "Operating time "
     else if Z.land vif 0x7C =? 0x70 then cstr "Averaging Duration "
     else cstr "Actuality Duration ")
    ++ switch n3 [(0, cstr "(seconds)"); (1, cstr "(minutes)"); (2, cstr "(hours)"); (3, cstr "(days)")] []
  else if between 0x6C 0x6D m then
    if negb (Z.land vif 0x1 =? 0) then cstr "Time Point (time & date)" else cstr "Time Point (date)"
  else if between 0x60 0x63 m then cstr "Temperature Difference (" ++ mbus_unit_prefix (n3 - 3) ++ cstr " deg C)"
  else if between 0x64 0x67 m then cstr "External temperature (" ++ mbus_unit_prefix (n3 - 3) ++ cstr " deg C)"
  else if m =? 0x6E then cstr "Units for H.C.A."
  else if m =? 0x6F then cstr "Reserved"
  else if m =? 0x7C then cstr "Custom VIF"
  else if m =? 0x78 then cstr "Fabrication number"
  else if m =? 0x7A then cstr "Bus Address"
  else if (m =? 0x7F) || (m =? 0xFF) then cstr "Manufacturer specific"
  else cstr "Unknown (VIF=0x" ++ fmt_X2 vif ++ cstr ")".

(** mbus-protocol.c 2471-2486 [mbus_unit_duration_nn], 2488-2506 [mbus_unit_duration_pp]. *)
Definition mbus_unit_duration_nn (nn : Z) : list Z :=
  switch nn [(0, cstr "second(s)"); (1, cstr "minute(s)"); (2, cstr "hour(s)"); (3, cstr "day(s)")] (cstr "error: out-of-range").
Definition mbus_unit_duration_pp (pp : Z) : list Z :=
  switch pp [(0, cstr "hour(s)"); (1, cstr "day(s)"); (2, cstr "month(s)"); (3, cstr "year(s)")] (cstr "error: out-of-range").

(** mbus-protocol.c 2508-2757 [mbus_vib_unit_lookup_fb] on vife[0]; runs of case labels are ranges. There is no case
    for 0x50 and 0x51. *)
Definition mbus_vib_unit_lookup_fb (vife0 : Z) : list Z :=
  let m := Z.land vife0 0x7F in
  let n1 := Z.land 0x01 vife0 in
  let n3 := Z.land 0x03 vife0 in
  let n7 := Z.land 0x07 vife0 in
  let prefix := if n1 =? 0 then cstr "0.1 " else [] in
  let reserved := cstr "Reserved (0x" ++ fmt_x2 vife0 ++ cstr ")" in
  if between 0x00 0x01 m then cstr "Energy (" ++ prefix ++ cstr "MWh)"
  else if between 0x02 0x07 m then reserved
  else if between 0x08 0x09 m then cstr "Energy (" ++ prefix ++ cstr "GJ)"
  else if between 0x0A 0x0F m then reserved
  else if between 0x10 0x11 m then cstr "Volume (" ++ mbus_unit_prefix (n1 + 2) ++ cstr "m3)"
  else if between 0x12 0x17 m then reserved
  else if between 0x18 0x19 m then cstr "Mass (" ++ mbus_unit_prefix (n1 + 2) ++ cstr "t)"
  else if between 0x1A 0x20 m then reserved
  else if m =? 0x21 then cstr "Volume (0.1 feet^3)"
  else if between 0x22 0x23 m then cstr "Volume (" ++ prefix ++ cstr "american gallon)"
  else if m =? 0x24 then cstr "Volume flow (0.001 american gallon/min)"
  else if m =? 0x25 then cstr "Volume flow (american gallon/min)"
  else if m =? 0x26 then cstr "Volume flow (american gallon/h)"
  else if m =? 0x27 then reserved
  else if between 0x28 0x29 m then cstr "Power (" ++ prefix ++ cstr "MW)"
  else if between 0x2A 0x2F m then reserved
  else if between 0x30 0x31 m then cstr "Power (" ++ prefix ++ cstr "GJ/h)"
  else if between 0x32 0x4F m || between 0x52 0x57 m then reserved
  else if between 0x58 0x5B m then cstr "Flow Temperature (" ++ mbus_unit_prefix (n3 - 3) ++ cstr " degree F)"
  else if between 0x5C 0x5F m then cstr "Return Temperature (" ++ mbus_unit_prefix (n3 - 3) ++ cstr " degree F)"
  else if between 0x60 0x63 m then cstr "Temperature Difference (" ++ mbus_unit_prefix (n3 - 3) ++ cstr " degree F)"
  else if between 0x64 0x67 m then cstr "External Temperature (" ++ mbus_unit_prefix (n3 - 3) ++ cstr " degree F)"
  else if between 0x68 0x6F m then reserved
  else if between 0x70 0x73 m then cstr "Cold / Warm Temperature Limit (" ++ mbus_unit_prefix (n3 - 3) ++ cstr " degree F)"
  else if between 0x74 0x77 m then cstr "Cold / Warm Temperature Limit (" ++ mbus_unit_prefix (n3 - 3) ++ cstr " degree C)"
  else if between 0x78 0x7F m then cstr "cumul. count max power (" ++ mbus_unit_prefix (n7 - 3) ++ cstr " W)"
  else cstr "Unrecognized VIF 0xFB extension: 0x" ++ fmt_x2 vife0.

(** mbus-protocol.c 2759-3063 [mbus_vib_unit_lookup_fd] on vife[0]. *)
Definition mbus_vib_unit_lookup_fd (vife0 : Z) : list Z :=
  let m := Z.land vife0 0x7F in
  if Z.land m 0x7C =? 0x00 then cstr "Credit of " ++ mbus_unit_prefix (Z.land m 0x03 - 3) ++ cstr " of the nominal local legal currency units"
  else if Z.land m 0x7C =? 0x04 then cstr "Debit of " ++ mbus_unit_prefix (Z.land m 0x03 - 3) ++ cstr " of the nominal local legal currency units"
  else if m =? 0x08 then cstr "Access Number (transmission count)"
  else if m =? 0x09 then cstr "Medium (as in fixed header)"
  else if m =? 0x0A then cstr "Manufacturer (as in fixed header)"
  else if m =? 0x0B then cstr "Parameter set identification"
  else if m =? 0x0C then cstr "Model / Version"
  else if m =? 0x0D then cstr "Hardware version"
  else if m =? 0x0E then cstr "Firmware version"
  else if m =? 0x0F then cstr "Software version"
  else if m =? 0x10 then cstr "Customer location"
  else if m =? 0x11 then cstr "Customer"
  else if m =? 0x12 then cstr "Access Code User"
  else if m =? 0x13 then cstr "Access Code Operator"
  else if m =? 0x14 then cstr "Access Code System Operator"
  else if m =? 0x15 then cstr "Access Code Developer"
  else if m =? 0x16 then cstr "Password"
  else if m =? 0x17 then cstr "Error flags"
  else if m =? 0x18 then cstr "Error mask"
  else if m =? 0x19 then cstr "Reserved"
  else if m =? 0x1A then cstr "Digital output (binary)"
  else if m =? 0x1B then cstr "Digital input (binary)"
  else if m =? 0x1C then cstr "Baudrate"
  else if m =? 0x1D then cstr "response delay time"
  else if m =? 0x1E then cstr "Retry"
  else if m =? 0x1F then cstr "Reserved"
  else if m =? 0x20 then cstr "First storage # for cyclic storage"
  else if m =? 0x21 then cstr "Last storage # for cyclic storage"
  else if m =? 0x22 then cstr "Size of storage block"
  else if m =? 0x23 then cstr "Reserved"
  else if Z.land m 0x7C =? 0x24 then cstr "Storage interval " ++ mbus_unit_duration_nn (Z.land m 0x03)
  else if m =? 0x28 then cstr "Storage interval month(s)"
  else if m =? 0x29 then cstr "Storage interval year(s)"
  else if m =? 0x2A then cstr "Reserved"
  else if m =? 0x2B then cstr "Reserved"
  else if Z.land m 0x7C =? 0x2C then cstr "Duration since last readout " ++ mbus_unit_duration_nn (Z.land m 0x03)
  else if m =? 0x30 then cstr "Start (date/time) of tariff"
  else if Z.land m 0x7C =? 0x30 then cstr "Duration of tariff " ++ mbus_unit_duration_nn (Z.land m 0x03)
  else if Z.land m 0x7C =? 0x34 then cstr "Period of tariff " ++ mbus_unit_duration_nn (Z.land m 0x03)
  else if m =? 0x38 then cstr "Period of tariff months(s)"
  else if m =? 0x39 then cstr "Period of tariff year(s)"
  else if m =? 0x3A then cstr "dimensionless / no VIF"
  else if m =? 0x3B then cstr "Reserved"
  else if Z.land m 0x7C =? 0x3C then cstr "Reserved"
  else if Z.land m 0x70 =? 0x40 then mbus_unit_prefix (Z.land m 0x0F - 9) ++ cstr " V"
  else if Z.land m 0x70 =? 0x50 then mbus_unit_prefix (Z.land m 0x0F - 12) ++ cstr " A"
  else if m =? 0x60 then cstr "Reset counter"
  else if m =? 0x61 then cstr "Cumulation counter"
  else if m =? 0x62 then cstr "Control signal"
  else if m =? 0x63 then cstr "Day of week"
  else if m =? 0x64 then cstr "Week number"
  else if m =? 0x65 then cstr "Time point of day change"
  else if m =? 0x66 then cstr "State of parameter activation"
  else if m =? 0x67 then cstr "Special supplier information"
  else if Z.land m 0x7C =? 0x68 then cstr "Duration since last cumulation " ++ mbus_unit_duration_pp (Z.land m 0x03)
  else if Z.land m 0x7C =? 0x6C then cstr "Operating time battery " ++ mbus_unit_duration_pp (Z.land m 0x03)
  else if m =? 0x70 then cstr "Date and time of battery change"
  else if Z.land m 0x70 =? 0x70 then cstr "Reserved VIF extension"
  else cstr "Unrecognized VIF 0xFD extension: 0x" ++ fmt_x2 m.

(** [snprintf(buff, size, "%s", s)] of a text: cut to size - 1 characters. *)
Definition cut (size : nat) (s : list Z) : list Z := firstn (size - 1) s.

(** mbus-protocol.c 3078-3120 [mbus_vib_unit_lookup]. *)
Definition mbus_vib_unit_lookup (r : rec) : res (list Z) :=
  let* v0 := rd (r_vife r) 0 in
  if r_vif r =? 0xFB then
    if (r_nvife r =? 0)%nat then Ok (cstr "Missing VIF extension") else Ok (mbus_vib_unit_lookup_fb v0)
  else if r_vif r =? 0xFD then
    if (r_nvife r =? 0)%nat then Ok (cstr "Missing VIF extension") else Ok (mbus_vib_unit_lookup_fd v0)
  else if r_vif r =? 0x7C then Ok (cut 256 (c_text (r_custom r)))
  else if (r_vif r =? 0xFC) && (Z.land v0 0x78 =? 0x70) then
    Ok (cut 256 (mbus_unit_prefix (Z.land v0 0x07 - 6) ++ cstr " " ++ c_text (r_custom r)))
  else Ok (mbus_vif_unit_lookup (r_vif r)).

(** Conversion of a long long to int (modulo 2^32 on all usual targets). *)
Definition to_int (v : Z) : Z := (v + 2 ^ 31) mod 2 ^ 32 - 2 ^ 31.

(** mbus-protocol.c 3190-3195, 3229-3238: the two date formats. *)
Definition fmt_date (t : tm) : list Z :=
  fmt_04d (tm_year t + 1900) ++ [45] ++ fmt_02d (tm_mon t + 1) ++ [45] ++ fmt_02d (tm_mday t).
Definition fmt_datetime (t : tm) : list Z :=
  fmt_date t ++ [84] ++ fmt_02d (tm_hour t) ++ [58] ++ fmt_02d (tm_min t) ++ [58] ++ fmt_02d (tm_sec t).

(** mbus-protocol.c 3294-3303 and the like: BCD of [n] bytes; state function 3 (error) is shown in hexadecimal. The
    value of up to four bytes goes through an int, %X prints it as unsigned. *)
Definition bcd_text (r : rec) (n : nat) : res (list Z) :=
  if Z.land (r_dif r) 0x30 =? 0x30 then
    let* v := mbus_data_bcd_decode_hex (r_data r) n in
    Ok (fmt_X (if (n <=? 4)%nat then to_int v mod 2 ^ 32 else v))
  else
    let* v := mbus_data_bcd_decode (r_data r) n in
    Ok (fmt_d (if (n <=? 4)%nat then to_int v else v)).

(** mbus-protocol.c 3145-3415 [mbus_data_record_decode]: the text in the 768-byte buffer. The contents of the static
    buffer before the call are zero here (every branch writes its own terminator). Little-endian host for reals. *)
Definition mbus_data_record_decode (r : rec) : res (list Z) :=
  let vif := Z.land (r_vif r) 0x7F in
  let* v0 := rd (r_vife r) 0 in
  let vife := Z.land v0 0x7F in
  let timed := (vif =? 0x6D) || ((r_vif r =? 0xFD) && (vife =? 0x30)) || ((r_vif r =? 0xFD) && (vife =? 0x70)) in
  let buff := repeat 0 768 in
  let k := Z.land (r_dif r) 0x0F in
  if k =? 0x00 then Ok []
  else if k =? 0x01 then let* (_, v) := mbus_data_int_decode (r_data r) 1 in Ok (fmt_d v)
  else if k =? 0x02 then
    if vif =? 0x6C then let* t := mbus_data_tm_decode (r_data r) 2 in Ok (fmt_date t)
    else let* (_, v) := mbus_data_int_decode (r_data r) 2 in Ok (fmt_d v)
  else if k =? 0x03 then let* (_, v) := mbus_data_int_decode (r_data r) 3 in Ok (fmt_d v)
  else if k =? 0x04 then
    if timed then let* t := mbus_data_tm_decode (r_data r) 4 in Ok (fmt_datetime t)
    else let* (_, v) := mbus_data_int_decode (r_data r) 4 in Ok (fmt_d v)
  else if k =? 0x05 then let* b := float_bits true (r_data r) in Ok (fmt_f b)
  else if k =? 0x06 then
    if timed then let* t := mbus_data_tm_decode (r_data r) 6 in Ok (fmt_datetime t)
    else let* (_, v) := mbus_data_long_long_decode (r_data r) 6 in Ok (fmt_d v)
  else if k =? 0x07 then let* (_, v) := mbus_data_long_long_decode (r_data r) 8 in Ok (fmt_d v)
  else if k =? 0x09 then bcd_text r 1
  else if k =? 0x0A then bcd_text r 2
  else if k =? 0x0B then bcd_text r 3
  else if k =? 0x0C then bcd_text r 4
  else if k =? 0x0E then bcd_text r 6
  else if k =? 0x0F then
    let* b := mbus_data_bin_decode buff (r_data r) (r_len r) 768 in Ok (c_text b)
  else if k =? 0x0D then
    if (r_len r =? 0)%nat then UB   (* data_len - 1 wraps around *)
    else
      let* d0 := rd (r_data r) 0 in
      if d0 <=? 0xBF then
        let* b := mbus_data_str_decode buff (skipn 1 (r_data r)) (r_len r - 1) in Ok (c_text b)
      else
        let* b := mbus_data_bin_decode buff (skipn 1 (r_data r)) (r_len r - 1) 768 in Ok (c_text b)
  else Ok (cstr "Unknown DIF (0x" ++ fmt_x2 (r_dif r) ++ cstr ")").

(** mbus-protocol.c 3419-3432 [mbus_data_record_unit] (buffer 128), 3437-3450 [mbus_data_record_value] (768). *)
Definition mbus_data_record_unit (r : rec) : res (list Z) :=
  let* t := mbus_vib_unit_lookup r in Ok (cut 128 t).
Definition mbus_data_record_value (r : rec) : res (list Z) :=
  let* t := mbus_data_record_decode r in Ok (cut 768 t).
