(** Specification of the product names: the catalogue of the meters the library knows, one line per product. *)
From Coq Require Import String.
From Coq Require Import List.
From Verif Require Import CBase CStr SWire SCodec MFrame MCodec MVar MText SXml.
Local Open Scope Z_scope.

(** What tells a product from the others of its maker: its versions; its versions within one medium, or outside one
    medium; or the two leading digits of its identification number. *)
Inductive model := Versions (first last : Z) | VersionsIn (medium first last : Z) | VersionsOutside (medium first last : Z) | LeadingDigits (two : Z).
Definition has_model (k : model) (version medium leading : Z) : bool :=
  match k with
  | Versions a b => (a <=? version) && (version <=? b)
  | VersionsIn md a b => (medium =? md) && (a <=? version) && (version <=? b)
  | VersionsOutside md a b => negb (medium =? md) && (a <=? version) && (version <=? b)
  | LeadingDigits d => leading =? d
  end.
Definition product : Type := string * model * string.
Definition maker (p : product) : string := fst (fst p).
Definition model_of (p : product) : model := snd (fst p).
Definition name_of (p : product) : string := snd p.
Definition one (v : Z) := Versions v v.
Definition ELECTRICITY := 0x02.
Definition WARM_WATER := 0x06.
Definition UNKNOWN_MEDIUM := 0x0F.
Definition catalogue : list product :=
 [("ABB", one 0x02, "ABB Delta-Meter"); ("ABB", one 0x20, "ABB B21 113-100");
  ("ACW", one 0x09, "Itron CF Echo 2"); ("ACW", one 0x0A, "Itron CF 51"); ("ACW", one 0x0B, "Itron CF 55"); ("ACW", one 0x0E, "Itron BM +m");
  ("ACW", one 0x0F, "Itron CF 800"); ("ACW", one 0x14, "Itron CYBLE M-Bus 1.4");
  ("AMT", Versions 0x00 0x3F, "Aquametro AMTRON"); ("AMT", Versions 0x40 0x7F, "Aquametro SAPHIR");
  ("AMT", Versions 0x80 0xBF, "Aquametro CALEC MB"); ("AMT", Versions 0xC0 0xFF, "Aquametro CALEC ST");
  ("BEC", VersionsIn ELECTRICITY 0x00 0x00, "Berg DCMi"); ("BEC", VersionsIn ELECTRICITY 0x07 0x07, "Berg BLMi");
  ("BEC", VersionsIn UNKNOWN_MEDIUM 0x71 0x71, "Berg BMB-10S0");
  ("EFE", VersionsIn WARM_WATER 0x00 0x00, "Engelmann WaterStar"); ("EFE", VersionsOutside WARM_WATER 0x00 0x00, "Engelmann / Elster SensoStar 2");
  ("EFE", one 0x01, "Engelmann SensoStar 2C");
  ("ELS", one 0x02, "Elster TMP-A"); ("ELS", one 0x0A, "Elster Falcon"); ("ELS", one 0x2F, "Elster F96 Plus");
  ("ELV", Versions 0x14 0x1D, "Elvaco CMa10"); ("ELV", Versions 0x32 0x3B, "Elvaco CMa11");
  ("EMH", one 0x00, "EMH DIZ");
  ("EMU", VersionsIn ELECTRICITY 0x10 0x10, "EMU Professional 3/75 M-Bus");
  ("GAV", VersionsIn ELECTRICITY 0x2D 0x30, "Carlo Gavazzi EM24"); ("GAV", VersionsIn ELECTRICITY 0x39 0x3A, "Carlo Gavazzi EM21");
  ("GAV", VersionsIn ELECTRICITY 0x40 0x40, "Carlo Gavazzi EM33");
  ("GMC", one 0xE6, "GMC-I A230 EMMOD 206");
  ("GTE", LeadingDigits 0x30, "Sensoco PT100"); ("GTE", LeadingDigits 0x41, "Sensoco 2-NTC"); ("GTE", LeadingDigits 0x45, "Sensoco Laser Light");
  ("GTE", LeadingDigits 0x48, "Sensoco ADIO"); ("GTE", LeadingDigits 0x51, "Sensoco THU"); ("GTE", LeadingDigits 0x61, "Sensoco THU");
  ("GTE", LeadingDigits 0x80, "Sensoco PulseCounter for E-Meter");
  ("HYD", one 0x28, "ABB F95 Typ US770"); ("HYD", one 0x2F, "Hydrometer Sharky 775");
  ("JAN", VersionsIn ELECTRICITY 0x09 0x09, "Janitza UMG 96S");
  ("KAM", one 0x01, "Kamstrup 382 (6850-005)"); ("KAM", one 0x08, "Kamstrup Multical 601");
  ("LSE", one 0x99, "Siemens WFH21");
  ("LUG", one 0x02, "Landis & Gyr Ultraheat 2WR5"); ("LUG", one 0x03, "Landis & Gyr Ultraheat 2WR6");
  ("LUG", one 0x04, "Landis & Gyr Ultraheat UH50"); ("LUG", one 0x07, "Landis & Gyr Ultraheat T230");
  ("NZR", one 0x01, "NZR DHZ 5/63"); ("NZR", one 0x50, "NZR IC-M2");
  ("RAM", one 0x03, "Rossweiner ETK/ETW Modularis");
  ("REL", one 0x08, "Relay PadPuls M1"); ("REL", one 0x12, "Relay PadPuls M4"); ("REL", one 0x20, "Relay Padin 4");
  ("REL", one 0x30, "Relay AnDi 4"); ("REL", one 0x40, "Relay PadPuls M2");
  ("RKE", one 0x69, "Ista sensonic II mbus");
  ("SBC", LeadingDigits 0x10, "Saia-Burgess ALE3"); ("SBC", LeadingDigits 0x11, "Saia-Burgess AWD3"); ("SBC", LeadingDigits 0x19, "Saia-Burgess ALE3");
  ("SEN", one 0x08, "Sensus PolluCom E"); ("SEN", one 0x0B, "Sensus PolluTherm"); ("SEN", one 0x0E, "Sensus PolluStat E"); ("SEN", one 0x19, "Sensus PolluCom E");
  ("SEO", LeadingDigits 0x30, "Sensoco PT100"); ("SEO", LeadingDigits 0x41, "Sensoco 2-NTC"); ("SEO", LeadingDigits 0x45, "Sensoco Laser Light");
  ("SEO", LeadingDigits 0x48, "Sensoco ADIO"); ("SEO", LeadingDigits 0x51, "Sensoco THU"); ("SEO", LeadingDigits 0x61, "Sensoco THU");
  ("SEO", LeadingDigits 0x80, "Sensoco PulseCounter for E-Meter");
  ("SLB", one 0x02, "Allmess Megacontrol CF-50"); ("SLB", one 0x06, "CF Compact / Integral MK MaXX");
  ("SON", one 0x0D, "Sontex Supercal 531");
  ("SPX", one 0x31, "Sensus PolluTherm"); ("SPX", one 0x34, "Sensus PolluTherm");
  ("SVM", one 0x08, "Elster F2 / Deltamess F2"); ("SVM", one 0x09, "Elster F4 / Kamstrup SVM F22");
  ("TCH", one 0x26, "Techem m-bus S"); ("TCH", one 0x40, "Techem ultra S3");
  ("WZG", one 0x03, "Modularis ETW-EAX");
  ("ZRM", one 0x81, "Minol Minocal C2"); ("ZRM", one 0x82, "Minol Minocal WR3")]%string.

(** The manufacturer code of three capital letters, and a meter that is an instance of a product. *)
Definition code_of (letters : string) : Z := match cstr letters with [a; b; c] => flag_id a b c | _ => -1 end.
Definition instance_of (p : product) (code version medium leading : Z) : Prop :=
  code = code_of (maker p) /\ has_model (model_of p) version medium leading = true.
(** The text shown for a meter: the name of its product, nothing if the catalogue has none. *)
Definition product_text (code version medium leading : Z) (t : list Z) : Prop :=
  (exists p, In p catalogue /\ instance_of p code version medium leading /\ t = cstr (name_of p)) \/
  ((forall p, In p catalogue -> ~ instance_of p code version medium leading) /\ t = []).
(** The same for the header of a reply. *)
Definition header_product (h : list Z) (t : list Z) : Prop :=
  exists i0 i1 i2 i3 m0 m1 version medium rest, h = [i0; i1; i2; i3; m0; m1; version; medium] ++ rest /\ product_text (m0 + 256 * m1) version medium i3 t.
(** The product name in the slave information of a document. *)
Definition says_product (slave : node) (t : list Z) : Prop :=
  exists before after, slave = Elem (cstr "SlaveInformation") [] (before ++ leaf "ProductName" t :: after).
