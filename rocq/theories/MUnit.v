(** Model of unit normalisation and normalised records: mbus/mbus-protocol-aux.c 35-748, 786-1385. No proofs here. *)
From Coq Require Import String.
From Coq Require Import List.
From Verif Require Import CBase CStr MFrame MCodec MVar MText.
From Verif Require Export MDouble.
Global Open Scope Z_scope.

(** mbus-protocol-aux.c 35-40 [mbus_variable_vif]; the exponent is the decimal literal of the source, rounded to a double
    where it is used. *)
Record urow := mkU { u_vif : Z; u_exponent : Q; u_unit : list Z; u_quantity : list Z }.

(** mbus-protocol-aux.c 42-669. *)
Definition vif_table : list urow :=
  [mkU 0x00 (1 # 1000) (cstr "Wh") (cstr "Energy");
   mkU 0x01 (1 # 100) (cstr "Wh") (cstr "Energy");
   mkU 0x02 (1 # 10) (cstr "Wh") (cstr "Energy");
   mkU 0x03 (1 # 1) (cstr "Wh") (cstr "Energy");
   mkU 0x04 (10 # 1) (cstr "Wh") (cstr "Energy");
   mkU 0x05 (100 # 1) (cstr "Wh") (cstr "Energy");
   mkU 0x06 (1000 # 1) (cstr "Wh") (cstr "Energy");
   mkU 0x07 (10000 # 1) (cstr "Wh") (cstr "Energy");
   mkU 0x08 (1 # 1) (cstr "J") (cstr "Energy");
   mkU 0x09 (10 # 1) (cstr "J") (cstr "Energy");
   mkU 0x0A (100 # 1) (cstr "J") (cstr "Energy");
   mkU 0x0B (1000 # 1) (cstr "J") (cstr "Energy");
   mkU 0x0C (10000 # 1) (cstr "J") (cstr "Energy");
   mkU 0x0D (100000 # 1) (cstr "J") (cstr "Energy");
   mkU 0x0E (1000000 # 1) (cstr "J") (cstr "Energy");
   mkU 0x0F (10000000 # 1) (cstr "J") (cstr "Energy");
   mkU 0x10 (1 # 1000000) (cstr "m^3") (cstr "Volume");
   mkU 0x11 (1 # 100000) (cstr "m^3") (cstr "Volume");
   mkU 0x12 (1 # 10000) (cstr "m^3") (cstr "Volume");
   mkU 0x13 (1 # 1000) (cstr "m^3") (cstr "Volume");
   mkU 0x14 (1 # 100) (cstr "m^3") (cstr "Volume");
   mkU 0x15 (1 # 10) (cstr "m^3") (cstr "Volume");
   mkU 0x16 (1 # 1) (cstr "m^3") (cstr "Volume");
   mkU 0x17 (10 # 1) (cstr "m^3") (cstr "Volume");
   mkU 0x18 (1 # 1000) (cstr "kg") (cstr "Mass");
   mkU 0x19 (1 # 100) (cstr "kg") (cstr "Mass");
   mkU 0x1A (1 # 10) (cstr "kg") (cstr "Mass");
   mkU 0x1B (1 # 1) (cstr "kg") (cstr "Mass");
   mkU 0x1C (10 # 1) (cstr "kg") (cstr "Mass");
   mkU 0x1D (100 # 1) (cstr "kg") (cstr "Mass");
   mkU 0x1E (1000 # 1) (cstr "kg") (cstr "Mass");
   mkU 0x1F (10000 # 1) (cstr "kg") (cstr "Mass");
   mkU 0x20 (1 # 1) (cstr "s") (cstr "On time");
   mkU 0x21 (60 # 1) (cstr "s") (cstr "On time");
   mkU 0x22 (3600 # 1) (cstr "s") (cstr "On time");
   mkU 0x23 (86400 # 1) (cstr "s") (cstr "On time");
   mkU 0x24 (1 # 1) (cstr "s") (cstr "Operating time");
   mkU 0x25 (60 # 1) (cstr "s") (cstr "Operating time");
   mkU 0x26 (3600 # 1) (cstr "s") (cstr "Operating time");
   mkU 0x27 (86400 # 1) (cstr "s") (cstr "Operating time");
   mkU 0x28 (1 # 1000) (cstr "W") (cstr "Power");
   mkU 0x29 (1 # 100) (cstr "W") (cstr "Power");
   mkU 0x2A (1 # 10) (cstr "W") (cstr "Power");
   mkU 0x2B (1 # 1) (cstr "W") (cstr "Power");
   mkU 0x2C (10 # 1) (cstr "W") (cstr "Power");
   mkU 0x2D (100 # 1) (cstr "W") (cstr "Power");
   mkU 0x2E (1000 # 1) (cstr "W") (cstr "Power");
   mkU 0x2F (10000 # 1) (cstr "W") (cstr "Power");
   mkU 0x30 (1 # 1) (cstr "J/h") (cstr "Power");
   mkU 0x31 (10 # 1) (cstr "J/h") (cstr "Power");
   mkU 0x32 (100 # 1) (cstr "J/h") (cstr "Power");
   mkU 0x33 (1000 # 1) (cstr "J/h") (cstr "Power");
   mkU 0x34 (10000 # 1) (cstr "J/h") (cstr "Power");
   mkU 0x35 (100000 # 1) (cstr "J/h") (cstr "Power");
   mkU 0x36 (1000000 # 1) (cstr "J/h") (cstr "Power");
   mkU 0x37 (10000000 # 1) (cstr "J/h") (cstr "Power");
   mkU 0x38 (1 # 1000000) (cstr "m^3/h") (cstr "Volume flow");
   mkU 0x39 (1 # 100000) (cstr "m^3/h") (cstr "Volume flow");
   mkU 0x3A (1 # 10000) (cstr "m^3/h") (cstr "Volume flow");
   mkU 0x3B (1 # 1000) (cstr "m^3/h") (cstr "Volume flow");
   mkU 0x3C (1 # 100) (cstr "m^3/h") (cstr "Volume flow");
   mkU 0x3D (1 # 10) (cstr "m^3/h") (cstr "Volume flow");
   mkU 0x3E (1 # 1) (cstr "m^3/h") (cstr "Volume flow");
   mkU 0x3F (10 # 1) (cstr "m^3/h") (cstr "Volume flow");
   mkU 0x40 (1 # 10000000) (cstr "m^3/min") (cstr "Volume flow");
   mkU 0x41 (1 # 1000000) (cstr "m^3/min") (cstr "Volume flow");
   mkU 0x42 (1 # 100000) (cstr "m^3/min") (cstr "Volume flow");
   mkU 0x43 (1 # 10000) (cstr "m^3/min") (cstr "Volume flow");
   mkU 0x44 (1 # 1000) (cstr "m^3/min") (cstr "Volume flow");
   mkU 0x45 (1 # 100) (cstr "m^3/min") (cstr "Volume flow");
   mkU 0x46 (1 # 10) (cstr "m^3/min") (cstr "Volume flow");
   mkU 0x47 (1 # 1) (cstr "m^3/min") (cstr "Volume flow");
   mkU 0x48 (1 # 1000000000) (cstr "m^3/s") (cstr "Volume flow");
   mkU 0x49 (1 # 100000000) (cstr "m^3/s") (cstr "Volume flow");
   mkU 0x4A (1 # 10000000) (cstr "m^3/s") (cstr "Volume flow");
   mkU 0x4B (1 # 1000000) (cstr "m^3/s") (cstr "Volume flow");
   mkU 0x4C (1 # 100000) (cstr "m^3/s") (cstr "Volume flow");
   mkU 0x4D (1 # 10000) (cstr "m^3/s") (cstr "Volume flow");
   mkU 0x4E (1 # 1000) (cstr "m^3/s") (cstr "Volume flow");
   mkU 0x4F (1 # 100) (cstr "m^3/s") (cstr "Volume flow");
   mkU 0x50 (1 # 1000) (cstr "kg/h") (cstr "Mass flow");
   mkU 0x51 (1 # 100) (cstr "kg/h") (cstr "Mass flow");
   mkU 0x52 (1 # 10) (cstr "kg/h") (cstr "Mass flow");
   mkU 0x53 (1 # 1) (cstr "kg/h") (cstr "Mass flow");
   mkU 0x54 (10 # 1) (cstr "kg/h") (cstr "Mass flow");
   mkU 0x55 (100 # 1) (cstr "kg/h") (cstr "Mass flow");
   mkU 0x56 (1000 # 1) (cstr "kg/h") (cstr "Mass flow");
   mkU 0x57 (10000 # 1) (cstr "kg/h") (cstr "Mass flow");
   mkU 0x58 (1 # 1000) (cstr "°C") (cstr "Flow temperature");
   mkU 0x59 (1 # 100) (cstr "°C") (cstr "Flow temperature");
   mkU 0x5A (1 # 10) (cstr "°C") (cstr "Flow temperature");
   mkU 0x5B (1 # 1) (cstr "°C") (cstr "Flow temperature");
   mkU 0x5C (1 # 1000) (cstr "°C") (cstr "Return temperature");
   mkU 0x5D (1 # 100) (cstr "°C") (cstr "Return temperature");
   mkU 0x5E (1 # 10) (cstr "°C") (cstr "Return temperature");
   mkU 0x5F (1 # 1) (cstr "°C") (cstr "Return temperature");
   mkU 0x60 (1 # 1000) (cstr "K") (cstr "Temperature difference");
   mkU 0x61 (1 # 100) (cstr "K") (cstr "Temperature difference");
   mkU 0x62 (1 # 10) (cstr "K") (cstr "Temperature difference");
   mkU 0x63 (1 # 1) (cstr "K") (cstr "Temperature difference");
   mkU 0x64 (1 # 1000) (cstr "°C") (cstr "External temperature");
   mkU 0x65 (1 # 100) (cstr "°C") (cstr "External temperature");
   mkU 0x66 (1 # 10) (cstr "°C") (cstr "External temperature");
   mkU 0x67 (1 # 1) (cstr "°C") (cstr "External temperature");
   mkU 0x68 (1 # 1000) (cstr "bar") (cstr "Pressure");
   mkU 0x69 (1 # 100) (cstr "bar") (cstr "Pressure");
   mkU 0x6A (1 # 10) (cstr "bar") (cstr "Pressure");
   mkU 0x6B (1 # 1) (cstr "bar") (cstr "Pressure");
   mkU 0x6C (1 # 1) (cstr "-") (cstr "Time point (date)");
   mkU 0x6D (1 # 1) (cstr "-") (cstr "Time point (date & time)");
   mkU 0x6E (1 # 1) (cstr "Units for H.C.A.") (cstr "H.C.A.");
   mkU 0x6F (0 # 1) (cstr "Reserved") (cstr "Reserved");
   mkU 0x70 (1 # 1) (cstr "s") (cstr "Averaging Duration");
   mkU 0x71 (60 # 1) (cstr "s") (cstr "Averaging Duration");
   mkU 0x72 (3600 # 1) (cstr "s") (cstr "Averaging Duration");
   mkU 0x73 (86400 # 1) (cstr "s") (cstr "Averaging Duration");
   mkU 0x74 (1 # 1) (cstr "s") (cstr "Actuality Duration");
   mkU 0x75 (60 # 1) (cstr "s") (cstr "Actuality Duration");
   mkU 0x76 (3600 # 1) (cstr "s") (cstr "Actuality Duration");
   mkU 0x77 (86400 # 1) (cstr "s") (cstr "Actuality Duration");
   mkU 0x78 (1 # 1) (cstr "") (cstr "Fabrication No");
   mkU 0x79 (1 # 1) (cstr "") (cstr "(Enhanced) Identification");
   mkU 0x7A (1 # 1) (cstr "") (cstr "Bus Address");
   mkU 0x7E (1 # 1) (cstr "") (cstr "Any VIF");
   mkU 0x7F (1 # 1) (cstr "") (cstr "Manufacturer specific");
   mkU 0xFE (1 # 1) (cstr "") (cstr "Any VIF");
   mkU 0xFF (1 # 1) (cstr "") (cstr "Manufacturer specific");
   mkU 0x100 (1 # 1000) (cstr "Currency units") (cstr "Credit");
   mkU 0x101 (1 # 100) (cstr "Currency units") (cstr "Credit");
   mkU 0x102 (1 # 10) (cstr "Currency units") (cstr "Credit");
   mkU 0x103 (1 # 1) (cstr "Currency units") (cstr "Credit");
   mkU 0x104 (1 # 1000) (cstr "Currency units") (cstr "Debit");
   mkU 0x105 (1 # 100) (cstr "Currency units") (cstr "Debit");
   mkU 0x106 (1 # 10) (cstr "Currency units") (cstr "Debit");
   mkU 0x107 (1 # 1) (cstr "Currency units") (cstr "Debit");
   mkU 0x108 (1 # 1) (cstr "") (cstr "Access Number (transmission count)");
   mkU 0x109 (1 # 1) (cstr "") (cstr "Medium");
   mkU 0x10A (1 # 1) (cstr "") (cstr "Manufacturer");
   mkU 0x10B (1 # 1) (cstr "") (cstr "Parameter set identification");
   mkU 0x10C (1 # 1) (cstr "") (cstr "Model / Version");
   mkU 0x10D (1 # 1) (cstr "") (cstr "Hardware version");
   mkU 0x10E (1 # 1) (cstr "") (cstr "Firmware version");
   mkU 0x10F (1 # 1) (cstr "") (cstr "Software version");
   mkU 0x110 (1 # 1) (cstr "") (cstr "Customer location");
   mkU 0x111 (1 # 1) (cstr "") (cstr "Customer");
   mkU 0x112 (1 # 1) (cstr "") (cstr "Access Code User");
   mkU 0x113 (1 # 1) (cstr "") (cstr "Access Code Operator");
   mkU 0x114 (1 # 1) (cstr "") (cstr "Access Code System Operator");
   mkU 0x115 (1 # 1) (cstr "") (cstr "Access Code Developer");
   mkU 0x116 (1 # 1) (cstr "") (cstr "Password");
   mkU 0x117 (1 # 1) (cstr "") (cstr "Error flags");
   mkU 0x118 (1 # 1) (cstr "") (cstr "Error mask");
   mkU 0x119 (1 # 1) (cstr "Reserved") (cstr "Reserved");
   mkU 0x11A (1 # 1) (cstr "") (cstr "Digital Output");
   mkU 0x11B (1 # 1) (cstr "") (cstr "Digital Input");
   mkU 0x11C (1 # 1) (cstr "Baud") (cstr "Baudrate");
   mkU 0x11D (1 # 1) (cstr "Bittimes") (cstr "Response delay time");
   mkU 0x11E (1 # 1) (cstr "") (cstr "Retry");
   mkU 0x11F (1 # 1) (cstr "Reserved") (cstr "Reserved");
   mkU 0x120 (1 # 1) (cstr "") (cstr "First storage # for cyclic storage");
   mkU 0x121 (1 # 1) (cstr "") (cstr "Last storage # for cyclic storage");
   mkU 0x122 (1 # 1) (cstr "") (cstr "Size of storage block");
   mkU 0x123 (1 # 1) (cstr "Reserved") (cstr "Reserved");
   mkU 0x124 (1 # 1) (cstr "s") (cstr "Storage interval");
   mkU 0x125 (60 # 1) (cstr "s") (cstr "Storage interval");
   mkU 0x126 (3600 # 1) (cstr "s") (cstr "Storage interval");
   mkU 0x127 (86400 # 1) (cstr "s") (cstr "Storage interval");
   mkU 0x128 (262974383 # 100) (cstr "s") (cstr "Storage interval");
   mkU 0x129 (31556926 # 1) (cstr "s") (cstr "Storage interval");
   mkU 0x12A (1 # 1) (cstr "Reserved") (cstr "Reserved");
   mkU 0x12B (1 # 1) (cstr "Reserved") (cstr "Reserved");
   mkU 0x12C (1 # 1) (cstr "s") (cstr "Duration since last readout");
   mkU 0x12D (60 # 1) (cstr "s") (cstr "Duration since last readout");
   mkU 0x12E (3600 # 1) (cstr "s") (cstr "Duration since last readout");
   mkU 0x12F (86400 # 1) (cstr "s") (cstr "Duration since last readout");
   mkU 0x130 (1 # 1) (cstr "Reserved") (cstr "Reserved");
   mkU 0x131 (60 # 1) (cstr "s") (cstr "Duration of tariff");
   mkU 0x132 (3600 # 1) (cstr "s") (cstr "Duration of tariff");
   mkU 0x133 (86400 # 1) (cstr "s") (cstr "Duration of tariff");
   mkU 0x134 (1 # 1) (cstr "s") (cstr "Period of tariff");
   mkU 0x135 (60 # 1) (cstr "s") (cstr "Period of tariff");
   mkU 0x136 (3600 # 1) (cstr "s") (cstr "Period of tariff");
   mkU 0x137 (86400 # 1) (cstr "s") (cstr "Period of tariff");
   mkU 0x138 (262974383 # 100) (cstr "s") (cstr "Period of tariff");
   mkU 0x139 (31556926 # 1) (cstr "s") (cstr "Period of tariff");
   mkU 0x13A (1 # 1) (cstr "") (cstr "Dimensionless");
   mkU 0x13B (1 # 1) (cstr "Reserved") (cstr "Reserved");
   mkU 0x13C (1 # 1) (cstr "Reserved") (cstr "Reserved");
   mkU 0x13D (1 # 1) (cstr "Reserved") (cstr "Reserved");
   mkU 0x13E (1 # 1) (cstr "Reserved") (cstr "Reserved");
   mkU 0x13F (1 # 1) (cstr "Reserved") (cstr "Reserved");
   mkU 0x140 (1 # 1000000000) (cstr "V") (cstr "Voltage");
   mkU 0x141 (1 # 100000000) (cstr "V") (cstr "Voltage");
   mkU 0x142 (1 # 10000000) (cstr "V") (cstr "Voltage");
   mkU 0x143 (1 # 1000000) (cstr "V") (cstr "Voltage");
   mkU 0x144 (1 # 100000) (cstr "V") (cstr "Voltage");
   mkU 0x145 (1 # 10000) (cstr "V") (cstr "Voltage");
   mkU 0x146 (1 # 1000) (cstr "V") (cstr "Voltage");
   mkU 0x147 (1 # 100) (cstr "V") (cstr "Voltage");
   mkU 0x148 (1 # 10) (cstr "V") (cstr "Voltage");
   mkU 0x149 (1 # 1) (cstr "V") (cstr "Voltage");
   mkU 0x14A (10 # 1) (cstr "V") (cstr "Voltage");
   mkU 0x14B (100 # 1) (cstr "V") (cstr "Voltage");
   mkU 0x14C (1000 # 1) (cstr "V") (cstr "Voltage");
   mkU 0x14D (10000 # 1) (cstr "V") (cstr "Voltage");
   mkU 0x14E (100000 # 1) (cstr "V") (cstr "Voltage");
   mkU 0x14F (1000000 # 1) (cstr "V") (cstr "Voltage");
   mkU 0x150 (1 # 1000000000000) (cstr "A") (cstr "Current");
   mkU 0x151 (1 # 100000000000) (cstr "A") (cstr "Current");
   mkU 0x152 (1 # 10000000000) (cstr "A") (cstr "Current");
   mkU 0x153 (1 # 1000000000) (cstr "A") (cstr "Current");
   mkU 0x154 (1 # 100000000) (cstr "A") (cstr "Current");
   mkU 0x155 (1 # 10000000) (cstr "A") (cstr "Current");
   mkU 0x156 (1 # 1000000) (cstr "A") (cstr "Current");
   mkU 0x157 (1 # 100000) (cstr "A") (cstr "Current");
   mkU 0x158 (1 # 10000) (cstr "A") (cstr "Current");
   mkU 0x159 (1 # 1000) (cstr "A") (cstr "Current");
   mkU 0x15A (1 # 100) (cstr "A") (cstr "Current");
   mkU 0x15B (1 # 10) (cstr "A") (cstr "Current");
   mkU 0x15C (1 # 1) (cstr "A") (cstr "Current");
   mkU 0x15D (10 # 1) (cstr "A") (cstr "Current");
   mkU 0x15E (100 # 1) (cstr "A") (cstr "Current");
   mkU 0x15F (1000 # 1) (cstr "A") (cstr "Current");
   mkU 0x160 (1 # 1) (cstr "") (cstr "Reset counter");
   mkU 0x161 (1 # 1) (cstr "") (cstr "Cumulation counter");
   mkU 0x162 (1 # 1) (cstr "") (cstr "Control signal");
   mkU 0x163 (1 # 1) (cstr "") (cstr "Day of week");
   mkU 0x164 (1 # 1) (cstr "") (cstr "Week number");
   mkU 0x165 (1 # 1) (cstr "") (cstr "Time point of day change");
   mkU 0x166 (1 # 1) (cstr "") (cstr "State of parameter activation");
   mkU 0x167 (1 # 1) (cstr "") (cstr "Special supplier information");
   mkU 0x168 (3600 # 1) (cstr "s") (cstr "Duration since last cumulation");
   mkU 0x169 (86400 # 1) (cstr "s") (cstr "Duration since last cumulation");
   mkU 0x16A (262974383 # 100) (cstr "s") (cstr "Duration since last cumulation");
   mkU 0x16B (31556926 # 1) (cstr "s") (cstr "Duration since last cumulation");
   mkU 0x16C (3600 # 1) (cstr "s") (cstr "Operating time battery");
   mkU 0x16D (86400 # 1) (cstr "s") (cstr "Operating time battery");
   mkU 0x16E (262974383 # 100) (cstr "s") (cstr "Operating time battery");
   mkU 0x16F (31556926 # 1) (cstr "s") (cstr "Operating time battery");
   mkU 0x170 (1 # 1) (cstr "") (cstr "Date and time of battery change");
   mkU 0x171 (1 # 1) (cstr "Reserved") (cstr "Reserved");
   mkU 0x172 (1 # 1) (cstr "Reserved") (cstr "Reserved");
   mkU 0x173 (1 # 1) (cstr "Reserved") (cstr "Reserved");
   mkU 0x174 (1 # 1) (cstr "Reserved") (cstr "Reserved");
   mkU 0x175 (1 # 1) (cstr "Reserved") (cstr "Reserved");
   mkU 0x176 (1 # 1) (cstr "Reserved") (cstr "Reserved");
   mkU 0x177 (1 # 1) (cstr "Reserved") (cstr "Reserved");
   mkU 0x178 (1 # 1) (cstr "Reserved") (cstr "Reserved");
   mkU 0x179 (1 # 1) (cstr "Reserved") (cstr "Reserved");
   mkU 0x17A (1 # 1) (cstr "Reserved") (cstr "Reserved");
   mkU 0x17B (1 # 1) (cstr "Reserved") (cstr "Reserved");
   mkU 0x17C (1 # 1) (cstr "Reserved") (cstr "Reserved");
   mkU 0x17D (1 # 1) (cstr "Reserved") (cstr "Reserved");
   mkU 0x17E (1 # 1) (cstr "Reserved") (cstr "Reserved");
   mkU 0x17F (1 # 1) (cstr "Reserved") (cstr "Reserved");
   mkU 0x200 (100000 # 1) (cstr "Wh") (cstr "Energy");
   mkU 0x201 (1000000 # 1) (cstr "Wh") (cstr "Energy");
   mkU 0x202 (1 # 1) (cstr "Reserved") (cstr "Reserved");
   mkU 0x203 (1 # 1) (cstr "Reserved") (cstr "Reserved");
   mkU 0x204 (1 # 1) (cstr "Reserved") (cstr "Reserved");
   mkU 0x205 (1 # 1) (cstr "Reserved") (cstr "Reserved");
   mkU 0x206 (1 # 1) (cstr "Reserved") (cstr "Reserved");
   mkU 0x207 (1 # 1) (cstr "Reserved") (cstr "Reserved");
   mkU 0x208 (100000000 # 1) (cstr "Reserved") (cstr "Energy");
   mkU 0x209 (1000000000 # 1) (cstr "Reserved") (cstr "Energy");
   mkU 0x20A (1 # 1) (cstr "Reserved") (cstr "Reserved");
   mkU 0x20B (1 # 1) (cstr "Reserved") (cstr "Reserved");
   mkU 0x20C (1 # 1) (cstr "Reserved") (cstr "Reserved");
   mkU 0x20D (1 # 1) (cstr "Reserved") (cstr "Reserved");
   mkU 0x20E (1 # 1) (cstr "Reserved") (cstr "Reserved");
   mkU 0x20F (1 # 1) (cstr "Reserved") (cstr "Reserved");
   mkU 0x210 (100 # 1) (cstr "m^3") (cstr "Volume");
   mkU 0x211 (1000 # 1) (cstr "m^3") (cstr "Volume");
   mkU 0x212 (1 # 1) (cstr "Reserved") (cstr "Reserved");
   mkU 0x213 (1 # 1) (cstr "Reserved") (cstr "Reserved");
   mkU 0x214 (1 # 1) (cstr "Reserved") (cstr "Reserved");
   mkU 0x215 (1 # 1) (cstr "Reserved") (cstr "Reserved");
   mkU 0x216 (1 # 1) (cstr "Reserved") (cstr "Reserved");
   mkU 0x217 (1 # 1) (cstr "Reserved") (cstr "Reserved");
   mkU 0x218 (100000 # 1) (cstr "kg") (cstr "Mass");
   mkU 0x219 (1000000 # 1) (cstr "kg") (cstr "Mass");
   mkU 0x21A (1 # 1) (cstr "Reserved") (cstr "Reserved");
   mkU 0x21B (1 # 1) (cstr "Reserved") (cstr "Reserved");
   mkU 0x21C (1 # 1) (cstr "Reserved") (cstr "Reserved");
   mkU 0x21D (1 # 1) (cstr "Reserved") (cstr "Reserved");
   mkU 0x21E (1 # 1) (cstr "Reserved") (cstr "Reserved");
   mkU 0x21F (1 # 1) (cstr "Reserved") (cstr "Reserved");
   mkU 0x220 (1 # 1) (cstr "Reserved") (cstr "Reserved");
   mkU 0x221 (1 # 10) (cstr "feet^3") (cstr "Volume");
   mkU 0x222 (1 # 10) (cstr "American gallon") (cstr "Volume");
   mkU 0x223 (1 # 1) (cstr "American gallon") (cstr "Volume");
   mkU 0x224 (1 # 1000) (cstr "American gallon/min") (cstr "Volume flow");
   mkU 0x225 (1 # 1) (cstr "American gallon/min") (cstr "Volume flow");
   mkU 0x226 (1 # 1) (cstr "American gallon/h") (cstr "Volume flow");
   mkU 0x227 (1 # 1) (cstr "Reserved") (cstr "Reserved");
   mkU 0x228 (100000 # 1) (cstr "W") (cstr "Power");
   mkU 0x229 (1000000 # 1) (cstr "W") (cstr "Power");
   mkU 0x22A (1 # 1) (cstr "Reserved") (cstr "Reserved");
   mkU 0x22B (1 # 1) (cstr "Reserved") (cstr "Reserved");
   mkU 0x22C (1 # 1) (cstr "Reserved") (cstr "Reserved");
   mkU 0x22D (1 # 1) (cstr "Reserved") (cstr "Reserved");
   mkU 0x22E (1 # 1) (cstr "Reserved") (cstr "Reserved");
   mkU 0x22F (1 # 1) (cstr "Reserved") (cstr "Reserved");
   mkU 0x230 (100000000 # 1) (cstr "J") (cstr "Power");
   mkU 0x231 (1000000000 # 1) (cstr "J") (cstr "Power");
   mkU 0x232 (1 # 1) (cstr "Reserved") (cstr "Reserved");
   mkU 0x233 (1 # 1) (cstr "Reserved") (cstr "Reserved");
   mkU 0x234 (1 # 1) (cstr "Reserved") (cstr "Reserved");
   mkU 0x235 (1 # 1) (cstr "Reserved") (cstr "Reserved");
   mkU 0x236 (1 # 1) (cstr "Reserved") (cstr "Reserved");
   mkU 0x237 (1 # 1) (cstr "Reserved") (cstr "Reserved");
   mkU 0x238 (1 # 1) (cstr "Reserved") (cstr "Reserved");
   mkU 0x239 (1 # 1) (cstr "Reserved") (cstr "Reserved");
   mkU 0x23A (1 # 1) (cstr "Reserved") (cstr "Reserved");
   mkU 0x23B (1 # 1) (cstr "Reserved") (cstr "Reserved");
   mkU 0x23C (1 # 1) (cstr "Reserved") (cstr "Reserved");
   mkU 0x23D (1 # 1) (cstr "Reserved") (cstr "Reserved");
   mkU 0x23E (1 # 1) (cstr "Reserved") (cstr "Reserved");
   mkU 0x23F (1 # 1) (cstr "Reserved") (cstr "Reserved");
   mkU 0x240 (1 # 1) (cstr "Reserved") (cstr "Reserved");
   mkU 0x241 (1 # 1) (cstr "Reserved") (cstr "Reserved");
   mkU 0x242 (1 # 1) (cstr "Reserved") (cstr "Reserved");
   mkU 0x243 (1 # 1) (cstr "Reserved") (cstr "Reserved");
   mkU 0x244 (1 # 1) (cstr "Reserved") (cstr "Reserved");
   mkU 0x245 (1 # 1) (cstr "Reserved") (cstr "Reserved");
   mkU 0x246 (1 # 1) (cstr "Reserved") (cstr "Reserved");
   mkU 0x247 (1 # 1) (cstr "Reserved") (cstr "Reserved");
   mkU 0x248 (1 # 1) (cstr "Reserved") (cstr "Reserved");
   mkU 0x249 (1 # 1) (cstr "Reserved") (cstr "Reserved");
   mkU 0x24A (1 # 1) (cstr "Reserved") (cstr "Reserved");
   mkU 0x24B (1 # 1) (cstr "Reserved") (cstr "Reserved");
   mkU 0x24C (1 # 1) (cstr "Reserved") (cstr "Reserved");
   mkU 0x24D (1 # 1) (cstr "Reserved") (cstr "Reserved");
   mkU 0x24E (1 # 1) (cstr "Reserved") (cstr "Reserved");
   mkU 0x24F (1 # 1) (cstr "Reserved") (cstr "Reserved");
   mkU 0x250 (1 # 1) (cstr "Reserved") (cstr "Reserved");
   mkU 0x251 (1 # 1) (cstr "Reserved") (cstr "Reserved");
   mkU 0x252 (1 # 1) (cstr "Reserved") (cstr "Reserved");
   mkU 0x253 (1 # 1) (cstr "Reserved") (cstr "Reserved");
   mkU 0x254 (1 # 1) (cstr "Reserved") (cstr "Reserved");
   mkU 0x255 (1 # 1) (cstr "Reserved") (cstr "Reserved");
   mkU 0x256 (1 # 1) (cstr "Reserved") (cstr "Reserved");
   mkU 0x257 (1 # 1) (cstr "Reserved") (cstr "Reserved");
   mkU 0x258 (1 # 1000) (cstr "°F") (cstr "Flow temperature");
   mkU 0x259 (1 # 100) (cstr "°F") (cstr "Flow temperature");
   mkU 0x25A (1 # 10) (cstr "°F") (cstr "Flow temperature");
   mkU 0x25B (1 # 1) (cstr "°F") (cstr "Flow temperature");
   mkU 0x25C (1 # 1000) (cstr "°F") (cstr "Return temperature");
   mkU 0x25D (1 # 100) (cstr "°F") (cstr "Return temperature");
   mkU 0x25E (1 # 10) (cstr "°F") (cstr "Return temperature");
   mkU 0x25F (1 # 1) (cstr "°F") (cstr "Return temperature");
   mkU 0x260 (1 # 1000) (cstr "°F") (cstr "Temperature difference");
   mkU 0x261 (1 # 100) (cstr "°F") (cstr "Temperature difference");
   mkU 0x262 (1 # 10) (cstr "°F") (cstr "Temperature difference");
   mkU 0x263 (1 # 1) (cstr "°F") (cstr "Temperature difference");
   mkU 0x264 (1 # 1000) (cstr "°F") (cstr "External temperature");
   mkU 0x265 (1 # 100) (cstr "°F") (cstr "External temperature");
   mkU 0x266 (1 # 10) (cstr "°F") (cstr "External temperature");
   mkU 0x267 (1 # 1) (cstr "°F") (cstr "External temperature");
   mkU 0x268 (1 # 1) (cstr "Reserved") (cstr "Reserved");
   mkU 0x269 (1 # 1) (cstr "Reserved") (cstr "Reserved");
   mkU 0x26A (1 # 1) (cstr "Reserved") (cstr "Reserved");
   mkU 0x26B (1 # 1) (cstr "Reserved") (cstr "Reserved");
   mkU 0x26C (1 # 1) (cstr "Reserved") (cstr "Reserved");
   mkU 0x26D (1 # 1) (cstr "Reserved") (cstr "Reserved");
   mkU 0x26E (1 # 1) (cstr "Reserved") (cstr "Reserved");
   mkU 0x26F (1 # 1) (cstr "Reserved") (cstr "Reserved");
   mkU 0x270 (1 # 1000) (cstr "°F") (cstr "Cold / Warm Temperature Limit");
   mkU 0x271 (1 # 100) (cstr "°F") (cstr "Cold / Warm Temperature Limit");
   mkU 0x272 (1 # 10) (cstr "°F") (cstr "Cold / Warm Temperature Limit");
   mkU 0x273 (1 # 1) (cstr "°F") (cstr "Cold / Warm Temperature Limit");
   mkU 0x274 (1 # 1000) (cstr "°C") (cstr "Cold / Warm Temperature Limit");
   mkU 0x275 (1 # 100) (cstr "°C") (cstr "Cold / Warm Temperature Limit");
   mkU 0x276 (1 # 10) (cstr "°C") (cstr "Cold / Warm Temperature Limit");
   mkU 0x277 (1 # 1) (cstr "°C") (cstr "Cold / Warm Temperature Limit");
   mkU 0x278 (1 # 1000) (cstr "W") (cstr "Cumul count max power");
   mkU 0x279 (1 # 1000) (cstr "W") (cstr "Cumul count max power");
   mkU 0x27A (1 # 10) (cstr "W") (cstr "Cumul count max power");
   mkU 0x27B (1 # 1) (cstr "W") (cstr "Cumul count max power");
   mkU 0x27C (10 # 1) (cstr "W") (cstr "Cumul count max power");
   mkU 0x27D (100 # 1) (cstr "W") (cstr "Cumul count max power");
   mkU 0x27E (1000 # 1) (cstr "W") (cstr "Cumul count max power");
   mkU 0x27F (10000 # 1) (cstr "W") (cstr "Cumul count max power");
   mkU 0xFFFF (0 # 1) (cstr "") (cstr "")].

(** mbus-protocol-aux.c 673-748. *)
Definition fixed_table : list urow :=
  [mkU 0x02 (1 # 1) (cstr "Wh") (cstr "Energy");
   mkU 0x03 (10 # 1) (cstr "Wh") (cstr "Energy");
   mkU 0x04 (100 # 1) (cstr "Wh") (cstr "Energy");
   mkU 0x05 (1000 # 1) (cstr "Wh") (cstr "Energy");
   mkU 0x06 (10000 # 1) (cstr "Wh") (cstr "Energy");
   mkU 0x07 (100000 # 1) (cstr "Wh") (cstr "Energy");
   mkU 0x08 (1000000 # 1) (cstr "Wh") (cstr "Energy");
   mkU 0x09 (10000000 # 1) (cstr "Wh") (cstr "Energy");
   mkU 0x0A (100000000 # 1) (cstr "Wh") (cstr "Energy");
   mkU 0x0B (1000 # 1) (cstr "J") (cstr "Energy");
   mkU 0x0C (10000 # 1) (cstr "J") (cstr "Energy");
   mkU 0x0D (100000 # 1) (cstr "J") (cstr "Energy");
   mkU 0x0E (1000000 # 1) (cstr "J") (cstr "Energy");
   mkU 0x0F (10000000 # 1) (cstr "J") (cstr "Energy");
   mkU 0x10 (100000000 # 1) (cstr "J") (cstr "Energy");
   mkU 0x11 (1000000000 # 1) (cstr "J") (cstr "Energy");
   mkU 0x12 (10000000000 # 1) (cstr "J") (cstr "Energy");
   mkU 0x13 (100000000000 # 1) (cstr "J") (cstr "Energy");
   mkU 0x14 (1 # 1) (cstr "W") (cstr "Power");
   mkU 0x15 (1 # 1) (cstr "W") (cstr "Power");
   mkU 0x16 (1 # 1) (cstr "W") (cstr "Power");
   mkU 0x17 (1 # 1) (cstr "W") (cstr "Power");
   mkU 0x18 (1 # 1) (cstr "W") (cstr "Power");
   mkU 0x19 (1 # 1) (cstr "W") (cstr "Power");
   mkU 0x1A (1 # 1) (cstr "W") (cstr "Power");
   mkU 0x1B (1 # 1) (cstr "W") (cstr "Power");
   mkU 0x1C (1 # 1) (cstr "W") (cstr "Power");
   mkU 0x1D (1000 # 1) (cstr "J/h") (cstr "Energy");
   mkU 0x1E (10000 # 1) (cstr "J/h") (cstr "Energy");
   mkU 0x1F (100000 # 1) (cstr "J/h") (cstr "Energy");
   mkU 0x20 (1000000 # 1) (cstr "J/h") (cstr "Energy");
   mkU 0x21 (10000000 # 1) (cstr "J/h") (cstr "Energy");
   mkU 0x22 (100000000 # 1) (cstr "J/h") (cstr "Energy");
   mkU 0x23 (1000000000 # 1) (cstr "J/h") (cstr "Energy");
   mkU 0x24 (10000000000 # 1) (cstr "J/h") (cstr "Energy");
   mkU 0x25 (100000000000 # 1) (cstr "J/h") (cstr "Energy");
   mkU 0x26 (1 # 1000000) (cstr "m^3") (cstr "Volume");
   mkU 0x27 (1 # 100000) (cstr "m^3") (cstr "Volume");
   mkU 0x28 (1 # 10000) (cstr "m^3") (cstr "Volume");
   mkU 0x29 (1 # 1000) (cstr "m^3") (cstr "Volume");
   mkU 0x2A (1 # 100) (cstr "m^3") (cstr "Volume");
   mkU 0x2B (1 # 10) (cstr "m^3") (cstr "Volume");
   mkU 0x2C (1 # 1) (cstr "m^3") (cstr "Volume");
   mkU 0x2D (10 # 1) (cstr "m^3") (cstr "Volume");
   mkU 0x2E (100 # 1) (cstr "m^3") (cstr "Volume");
   mkU 0x2F (1 # 100000) (cstr "m^3/h") (cstr "Volume flow");
   mkU 0x31 (1 # 10000) (cstr "m^3/h") (cstr "Volume flow");
   mkU 0x32 (1 # 1000) (cstr "m^3/h") (cstr "Volume flow");
   mkU 0x33 (1 # 100) (cstr "m^3/h") (cstr "Volume flow");
   mkU 0x34 (1 # 10) (cstr "m^3/h") (cstr "Volume flow");
   mkU 0x35 (1 # 1) (cstr "m^3/h") (cstr "Volume flow");
   mkU 0x36 (10 # 1) (cstr "m^3/h") (cstr "Volume flow");
   mkU 0x37 (100 # 1) (cstr "m^3/h") (cstr "Volume flow");
   mkU 0x38 (1 # 1000) (cstr "°C") (cstr "Temperature");
   mkU 0x39 (1 # 1) (cstr "Units for H.C.A.") (cstr "H.C.A.");
   mkU 0x3A (0 # 1) (cstr "Reserved") (cstr "Reserved");
   mkU 0x3B (0 # 1) (cstr "Reserved") (cstr "Reserved");
   mkU 0x3C (0 # 1) (cstr "Reserved") (cstr "Reserved");
   mkU 0x3D (0 # 1) (cstr "Reserved") (cstr "Reserved");
   mkU 0x3E (1 # 1) (cstr "") (cstr "historic");
   mkU 0x3F (1 # 1) (cstr "") (cstr "No units");
   mkU 0xFFFF (0 # 1) (cstr "") (cstr "")].


(** mbus-protocol-aux.c 1058-1067, 808-817: first row with this code, before the end mark (vif >= 0xfff). *)
Fixpoint find_row (t : list urow) (code : Z) : option urow :=
  match t with
  | [] => None
  | r :: t' => if u_vif r <? 0xfff then if u_vif r =? code then Some r else find_row t' code else None
  end.

(** mbus-protocol-aux.c 786-826 [mbus_fixed_normalize] (pointers not NULL): return value, unit, value (None = not
    written), quantity. *)
Definition mbus_fixed_normalize (medium_unit medium_value : Z) : Z * list Z * option real * list Z :=
  let u := Z.land medium_unit 0x3F in
  if u =? 0x00 then (-2, cstr "h,m,s", None, cstr "Time")
  else if u =? 0x01 then (-2, cstr "D,M,Y", None, cstr "Time")
  else match find_row fixed_table u with
  | Some r => (0, u_unit r, Some (rmul (real_of medium_value) (dround (u_exponent r))), u_quantity r)
  | None => (-1, cstr "Unknown", Some (Num 0), cstr "Unknown")
  end.

(** mbus-protocol-aux.c 1044-1074 [mbus_vif_unit_normalize] (pointers not NULL). *)
Definition mbus_vif_unit_normalize (vif : Z) (value : real) : Z * list Z * real * list Z :=
  match find_row vif_table (Z.land vif 0xF7F) with
  | Some r => (0, u_unit r, rmul value (dround (u_exponent r)), u_quantity r)
  | None => (-1, cstr "Unknown (VIF=0x%.02X)", Num 0, cstr "Unknown")
  end.

(** mbus-protocol-aux.c 1143-1168: correction by the first VIFE. *)
Definition vife_correction (vife0 : Z) (value : real) : real :=
  let code := Z.land vife0 0x7F in
  if MText.between 0x70 0x77 code then rmul value (pow10 (Z.land vife0 0x07 - 6))
  else if MText.between 0x78 0x7B code then radd value (pow10 (Z.land vife0 0x03 - 3))
  else if code =? 0x7D then rmul value (inject_Z 1000)
  else value.

(** mbus-protocol-aux.c 1077-1171 [mbus_vib_unit_normalize] (pointers not NULL) on the value information of a record:
    None = failure (-1; unit and quantity may have been set, they are released with the record). *)
Definition mbus_vib_unit_normalize (r : rec) (value : real) : res (option (list Z * real * list Z)) :=
  let* v0 := rd (r_vife r) 0 in
  let plain (code : Z) : option (list Z * real * list Z) :=
    match mbus_vif_unit_normalize code value with
    | (ret, u, v, q) => if ret =? 0 then Some (u, v, q) else None
    end in
  let first :=
    if r_vif r =? 0xFD then
      if (r_nvife r =? 0)%nat then None else plain (Z.lor (Z.land v0 0x7F) 0x100)
    else if r_vif r =? 0xFB then
      if (r_nvife r =? 0)%nat then None else plain (Z.lor (Z.land v0 0x7F) 0x200)
    else if (r_vif r =? 0x7C) || (r_vif r =? 0xFC) then Some (cstr "-", value, c_text (r_custom r))
    else plain (Z.land (r_vif r) 0x7F) in
  match first with
  | None => Ok None
  | Some (u, v, q) =>
      if negb (Z.land (r_vif r) 0x80 =? 0) && negb (r_vif r =? 0xFD) && negb (r_vif r =? 0xFB)
      then Ok (Some (u, vife_correction v0 v, q)) else Ok (Some (u, v, q))
  end.

(** What [mbus_variable_value_decode] delivers: return value, number, text (None = NULL: the value is a number) with the
    size reported for it. *)
Record decoded := mkDec { e_ret : Z; e_real : real; e_str : option (list Z); e_size : Z }.
Definition dec_num (x : real) : decoded := mkDec 0 x None 0.
(** [malloc(n)], contents zero here, then the text written by [fill] into it. *)
Definition dec_text (n : nat) (size : Z) (fill : list Z -> res (list Z)) : res decoded :=
  let* b := fill (repeat 0 n) in Ok (mkDec 0 (Num 0) (Some (c_text b)) size).
(** mbus-protocol-aux.c 829-1042 [mbus_variable_value_decode] (record not NULL, allocation succeeds). The result of the
    integer decoders is their return value. Little-endian host for reals. *)
Definition mbus_variable_value_decode (r : rec) : res decoded :=
  let vif := Z.land (r_vif r) 0x7F in
  let* v0 := rd (r_vife r) 0 in
  let vife := Z.land v0 0x7F in
  let timed := (vif =? 0x6D) || ((r_vif r =? 0xFD) && (vife =? 0x30)) || ((r_vif r =? 0xFD) && (vife =? 0x70)) in
  let k := Z.land (r_dif r) 0x0F in
  let int (n : nat) := let* (ret, v) := mbus_data_int_decode (r_data r) n in Ok (mkDec ret (real_of v) None 0) in
  let llong (n : nat) := let* (ret, v) := mbus_data_long_long_decode (r_data r) n in Ok (mkDec ret (real_of v) None 0) in
  let bcd (n : nat) := let* v := mbus_data_bcd_decode (r_data r) n in Ok (dec_num (real_of v)) in
  let date := let* t := mbus_data_tm_decode (r_data r) 2 in
              let s := fmt_date t in dec_text 11 (Z.of_nat (List.length s)) (fun b => put_list b 0 (cut 11 s ++ [0])) in
  let datetime (n : nat) := let* t := mbus_data_tm_decode (r_data r) n in
              let s := fmt_datetime t ++ [90] in dec_text 21 (Z.of_nat (List.length s)) (fun b => put_list b 0 (cut 21 s ++ [0])) in
  if k =? 0x00 then dec_text 1 0 (fun b => wr b 0 0)
  else if k =? 0x01 then int 1%nat
  else if k =? 0x02 then if vif =? 0x6C then date else int 2%nat
  else if k =? 0x03 then int 3%nat
  else if k =? 0x04 then if timed then datetime 4%nat else int 4%nat
  else if k =? 0x05 then let* b := float_bits true (r_data r) in Ok (dec_num (real_of_bits b))
  else if k =? 0x06 then if timed then datetime 6%nat else llong 6%nat
  else if k =? 0x07 then llong 8%nat
  else if k =? 0x09 then bcd 1%nat
  else if k =? 0x0A then bcd 2%nat
  else if k =? 0x0B then bcd 3%nat
  else if k =? 0x0C then bcd 4%nat
  else if k =? 0x0D then
    let* d0 := rd (r_data r) 0 in
    if (r_len r =? 0)%nat then UB   (* data_len - 1 wraps around *)
    else
    let n := (r_len r - 1)%nat in
    if d0 <=? 0xBF then dec_text (r_len r) (Z.of_nat n) (fun b => mbus_data_str_decode b (skipn 1 (r_data r)) n)
    else dec_text (3 * n + 1) (Z.of_nat (3 * n)) (fun b => mbus_data_bin_decode b (skipn 1 (r_data r)) n (3 * n + 1))
  else if k =? 0x0E then bcd 6%nat
  else if k =? 0x0F then
    dec_text (3 * r_len r + 1) (Z.of_nat (3 * r_len r)) (fun b => mbus_data_bin_decode b (r_data r) (r_len r) (3 * r_len r + 1))
  else Ok (mkDec (-2) (Num 0) None 0).

(** mbus-protocol-aux.h 125-149 [mbus_record]. *)
Inductive value := VNum (x : real) | VStr (s : list Z) (size : Z).
Record nrec := mkN { n_value : value; n_unit : option (list Z); n_function : list Z; n_quantity : option (list Z);
                     n_device : Z; n_tariff : Z; n_storage : Z }.

(** mbus-protocol-aux.c 1229-1270 [mbus_parse_fixed_record] (allocation succeeds); None = NULL. The value member is
    initialised to 0 (1182). *)
Definition mbus_parse_fixed_record (status medium_unit : Z) (data : list Z) : res (option nrec) :=
  let* v := (if Z.land status 0x80 =? 0x00 then mbus_data_bcd_decode data 4
             else let* (_, v) := mbus_data_long_decode data 4 in Ok v) in
  match mbus_fixed_normalize medium_unit v with
  | (ret, u, x, q) =>
      if negb (ret =? 0) then Ok None
      else Ok (Some (mkN (VNum (match x with Some x => x | None => Num 0 end)) (Some u) (mbus_data_fixed_function status) (Some q) (-1) (-1) 0))
  end.

(** mbus-protocol-aux.c 1273-1385 [mbus_parse_variable_record] (record not NULL, allocation succeeds): the new record
    (None = NULL) and whether the decoded text was allocated and neither stored in the record nor freed. *)
Definition mbus_parse_variable_record (r : rec) : res (option nrec * bool) :=
  let* storage := mbus_data_record_storage_number r in
  let* tariff := mbus_data_record_tariff r in
  let* device := mbus_data_record_device r in
  let* d := mbus_variable_value_decode r in
  let lost := match e_str d with Some _ => true | None => false end in
  if (r_dif r =? 0x0F) || (r_dif r =? 0x1F) then
    if negb (e_ret d =? 0) then Ok (None, lost)
    else
      let v := match e_str d with Some s => VStr s (e_size d) | None => VNum (Num 0) end in
      Ok (Some (mkN v None (if r_dif r =? 0x1F then cstr "More records follow" else cstr "Manufacturer specific") None device tariff storage), false)
  else
    if negb (e_ret d =? 0) then Ok (None, lost)
    else
      let* n := mbus_vib_unit_normalize r (e_real d) in
      match n with
      | None => Ok (None, lost)
      | Some (u, x, q) =>
          let v := match e_str d with Some s => VStr s (e_size d) | None => VNum x end in
          Ok (Some (mkN v (Some u) (mbus_data_record_function r) (Some q) device tariff storage), false)
      end.
