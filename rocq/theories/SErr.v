(** Specification of the error texts: which fault of a telegram or payload each text names. *)
From Coq Require Import String.
From Coq Require Import List.
From Verif Require Import CBase CStr MFrame SWire MVar SVar.

(** The text a C caller reads from the buffer: up to the first zero byte. *)
Fixpoint c_text (e : list Z) : list Z :=
  match e with [] => [] | c :: t => if c =? 0 then [] else c :: c_text t end.
(** A buffer of 512 bytes that holds a terminated text. *)
Definition err_ok (e : list Z) : Prop := List.length e = 512%nat /\ In 0 e.
(** The buffer holds the text [m], cut to 511 characters. *)
Definition says (e m : list Z) : Prop := err_ok e /\ c_text e = firstn 511 m.

(** Two lower-case hexadecimal digits of a byte. *)
Definition hex_pair (b : Z) : list Z :=
  let digit v := nth (Z.to_nat v) (cstr "0123456789abcdef") 0 in [digit (b / 16); digit (b mod 16)].

(** A telegram [68 l l 68 c a ci data k s] as bytes. *)
Definition long_form (l1 l2 s2 c a ci : Z) (d : list Z) (k s : Z) : list Z :=
  0x68 :: l1 :: l2 :: s2 :: c :: a :: ci :: d ++ [k; s].

Definition checksum_text (k sum : Z) : list Z :=
  cstr "Invalid checksum (0x" ++ hex_pair k ++ cstr " != 0x" ++ hex_pair sum ++ cstr ")".

(** The faults of received bytes: return code of the parser and text. *)
Inductive telegram_fault : list Z -> Z -> list Z -> Prop :=
| TF_empty : telegram_fault [] (-1) (cstr "Got null pointer to frame, data or zero data_size.")
| TF_start b t : b <> 0xE5 -> b <> 0x10 -> b <> 0x68 ->
    telegram_fault (b :: t) (-4) (cstr "Invalid M-Bus frame start.")
| TF_short_more t : (4 < List.length t)%nat -> telegram_fault (0x10 :: t) (-2) (cstr "Too much data in frame.")
| TF_short_control c a k s : ~ short_code c ->
    telegram_fault [0x10; c; a; k; s] (-3) (cstr "Unknown Control Code 0x" ++ hex_pair c)
| TF_short_stop c a k s : short_code c -> s <> 0x16 ->
    telegram_fault [0x10; c; a; k; s] (-3) (cstr "No frame stop")
| TF_short_sum c a k : short_code c -> k <> (c + a) mod 256 ->
    telegram_fault [0x10; c; a; k; 0x16] (-3) (checksum_text k ((c + a) mod 256))
| TF_length l1 l2 t : l1 < 3 \/ l1 <> l2 ->
    telegram_fault (0x68 :: l1 :: l2 :: t) (-2) (cstr "Invalid M-Bus frame length.")
| TF_long_more l t : 3 <= l -> l + 3 < Z.of_nat (List.length t) ->
    telegram_fault (0x68 :: l :: l :: t) (-2) (cstr "Too much data in frame.")
| TF_long_start l s2 c a ci d k s : Z.of_nat (List.length d) = l - 3 -> s2 <> 0x68 ->
    telegram_fault (long_form l l s2 c a ci d k s) (-3) (cstr "No frame start")
| TF_long_control l c a ci d k s : Z.of_nat (List.length d) = l - 3 -> ~ long_code c ->
    telegram_fault (long_form l l 0x68 c a ci d k s) (-3) (cstr "Unknown Control Code 0x" ++ hex_pair c)
| TF_long_stop l c a ci d k s : Z.of_nat (List.length d) = l - 3 -> long_code c -> s <> 0x16 ->
    telegram_fault (long_form l l 0x68 c a ci d k s) (-3) (cstr "No frame stop")
| TF_long_sum l c a ci d k : Z.of_nat (List.length d) = l - 3 -> long_code c ->
    k <> (c + a + ci + total d) mod 256 ->
    telegram_fault (long_form l l 0x68 c a ci d k 0x16) (-3) (checksum_text k ((c + a + ci + total d) mod 256)).

(** ** Faults of a frame object *)
Definition long_kind (f : frame) : Prop := ftype f = 3 \/ ftype f = 4.
Definition start_ok (f : frame) : Prop :=
  (ftype f = 2 /\ start1 f = 0x10) \/ (long_kind f /\ start1 f = 0x68 /\ start2 f = 0x68).
Definition code_ok (f : frame) : Prop := (ftype f = 2 /\ short_code (control f)) \/ (long_kind f /\ long_code (control f)).
(** The value the two length bytes should have, and the checksum. *)
Definition payload_of (f : frame) : list Z := if ftype f =? 4 then firstn (Z.to_nat (data_size f)) (fdata f) else [].
Definition length_field (f : frame) : Z := 3 + Z.of_nat (List.length (payload_of f)).
Definition length_ok (f : frame) : Prop :=
  ftype f = 2 \/ (long_kind f /\ length1 f = length2 f /\ length1 f = length_field f).
Definition sum_field (f : frame) : Z :=
  if ftype f =? 2 then (control f + address f) mod 256
  else (control f + address f + ctrl_info f + total (payload_of f)) mod 256.
Inductive object_fault (f : frame) : list Z -> Prop :=
| OF_type : ~ In (ftype f) [1; 2; 3; 4] -> object_fault f (cstr "Unknown frame type 0x" ++ hex_pair (ftype f))
| OF_start : In (ftype f) [2; 3; 4] -> ~ start_ok f -> object_fault f (cstr "No frame start")
| OF_code : start_ok f -> ~ code_ok f -> object_fault f (cstr "Unknown Control Code 0x" ++ hex_pair (control f))
| OF_lengths : start_ok f -> code_ok f -> long_kind f -> length1 f <> length2 f -> object_fault f (cstr "Frame length 1 != 2")
| OF_length : start_ok f -> code_ok f -> long_kind f -> length1 f = length2 f -> length1 f <> length_field f ->
    object_fault f (cstr "Frame length 1 != calc length")
| OF_stop : start_ok f -> code_ok f -> length_ok f -> stop f <> 0x16 -> object_fault f (cstr "No frame stop")
| OF_sum : start_ok f -> code_ok f -> length_ok f -> stop f = 0x16 -> checksum f <> sum_field f ->
    object_fault f (checksum_text (checksum f) (sum_field f)).

(** ** Faults of a data record *)
(** Every byte announces a further one. *)
Definition all_ext (l : list Z) : Prop := Forall (fun b => 128 <= b) l.
(** A complete DIF or VIF with its extensions. *)
Definition whole (b : Z) (ext : list Z) : Prop := chained b ext /\ (List.length ext <= 10)%nat.
(** The plain text of a VIF with its length byte, or nothing. *)
Definition text_part (vif : Z) (w : list Z) : Prop :=
  if has_text vif then exists n t, w = n :: t /\ Z.of_nat (List.length t) = n /\ n < 128 else w = [].

(** [l]: the payload from the first byte of the faulty record to its end. *)
Inductive record_fault : list Z -> list Z -> Prop :=
| RF_many_dife l : all_ext (firstn 11 l) -> (11 <= List.length l)%nat -> record_fault l (cstr "Too many DIFE.")
| RF_dif l : all_ext l -> (1 <= List.length l <= 10)%nat -> record_fault l (cstr "Premature end of record at DIF.")
| RF_long_text dif difes vif n t : whole dif difes -> has_text vif = true -> 128 < n ->
    record_fault (dif :: difes ++ vif :: n :: t) (cstr "Too long variable length VIF.")
| RF_text dif difes vif n t : whole dif difes -> has_text vif = true -> n <= 128 -> Z.of_nat (List.length t) < n ->
    record_fault (dif :: difes ++ vif :: n :: t) (cstr "Premature end of record at variable length VIF.")
| RF_many_vife dif difes vif w l : whole dif difes -> 128 <= vif -> text_part vif w ->
    all_ext (firstn 10 l) -> (10 <= List.length l)%nat ->
    record_fault (dif :: difes ++ vif :: w ++ l) (cstr "Too many VIFE.")
| RF_vif dif difes vif w l : whole dif difes -> 128 <= vif -> text_part vif w ->
    all_ext l -> (List.length l <= 9)%nat ->
    record_fault (dif :: difes ++ vif :: w ++ l) (cstr "Premature end of record at VIF.")
| RF_data dif difes vif w vifes l : whole dif difes -> whole vif vifes -> text_part vif w ->
    dif mod 16 <> 13 -> (List.length l < dif_size dif)%nat ->
    record_fault (dif :: difes ++ vif :: w ++ vifes ++ l) (cstr "Premature end of record at data.")
| RF_no_lvar dif difes vif w vifes : whole dif difes -> whole vif vifes -> text_part vif w -> dif mod 16 = 13 ->
    record_fault (dif :: difes ++ vif :: w ++ vifes) (cstr "Premature end of record at data.")
| RF_lvar dif difes vif w vifes b l : whole dif difes -> whole vif vifes -> text_part vif w -> dif mod 16 = 13 ->
    Z.of_nat (List.length l) < lvar_size b ->
    record_fault (dif :: difes ++ vif :: w ++ vifes ++ b :: l) (cstr "Premature end of record at data.").

(** The payload stops where a VIF, or the length of its plain text, should follow. *)
Definition cut_at_vif (l : list Z) : Prop :=
  exists dif difes, whole dif difes /\ (l = dif :: difes \/ exists vif, has_text vif = true /\ l = dif :: difes ++ [vif]).
(** What may be said then. *)
Definition cut_texts : list (list Z) :=
  [cstr "Too long variable length VIF."; cstr "Premature end of record at variable length VIF.";
   cstr "Premature end of record at VIF."].

(** Not a filler, manufacturer data or more-records-follow. *)
Definition ordinary (l : list Z) : Prop := hd 0 l <> 0x0F /\ hd 0 l <> 0x1F /\ hd 0 l <> 0x2F.

(** The faults of a reply with control field [c], control information [ci] and payload [p]. *)
Inductive data_fault (c ci : Z) (p : list Z) : list Z -> Prop :=
| DF_direction : (c / 64) mod 2 = 1 -> data_fault c ci p (cstr "Wrong direction in frame (master to slave)")
| DF_ci : (c / 64) mod 2 = 0 -> ~ In ci [0x70; 0x72; 0x73] ->
    data_fault c ci p (cstr "Unknown control information 0x" ++ hex_pair ci)
| DF_empty : (c / 64) mod 2 = 0 -> ci = 0x72 \/ ci = 0x73 -> p = [] -> data_fault c ci p (cstr "Got zero data_size.")
| DF_fixed : (c / 64) mod 2 = 0 -> ci = 0x73 -> p <> [] -> List.length p <> 16%nat ->
    data_fault c ci p (cstr "Invalid length for fixed data.")
| DF_header : (c / 64) mod 2 = 0 -> ci = 0x72 -> p <> [] -> (List.length p < 12)%nat ->
    data_fault c ci p (cstr "Variable header too short.")
| DF_record h its l m : (c / 64) mod 2 = 0 -> ci = 0x72 -> List.length h = 12%nat ->
    p = h ++ flat_map enc_item its ++ l -> Forall wf_item its -> ordinary l ->
    record_fault l m -> data_fault c ci p m
| DF_cut h its l m : (c / 64) mod 2 = 0 -> ci = 0x72 -> List.length h = 12%nat ->
    p = h ++ flat_map enc_item its ++ l -> Forall wf_item its -> ordinary l ->
    cut_at_vif l -> In m cut_texts -> data_fault c ci p m.

(** The payload of a variable data reply ends in such a cut. *)
Definition ends_cut (p : list Z) : Prop :=
  exists h its l, List.length h = 12%nat /\ p = h ++ flat_map enc_item its ++ l /\ Forall wf_item its /\ ordinary l /\
                  cut_at_vif l.
