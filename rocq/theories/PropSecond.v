(** Properties C42, C43: secondary addresses. *)
From Coq Require Import String.
From Coq Require Import List.
From Verif Require Import CBase PBase CStr MFrame MVar SWire SFrame SText SCodec SVar SXml MXml PFrame PXml3 MSecond SSecond PSecond PropVar PropXml.

(** C42: for every variable data reply the reported address is 16 hexadecimal digits (capital letters) denoting the first eight bytes
    of the reply's header. *)
Theorem C42_reported_address :
  forall f h its t, var_telegram f h its t ->
  exists s, mbus_frame_get_secondary_address f = Ok (Some s) /\ hex16 s /\ capitals s /\ address_text (firstn 8 h) s.
Proof. exact get_address_capitals. Qed.
(** C42: a mask of decimal digits and wildcards F in the identification number and any hexadecimal digits in the rest
    makes the selection telegram 68 0B 0B 68 73 FD 52 with the eight bytes the mask denotes (F is the nibble 15). *)
Theorem C42_selection_telegram :
  forall f s, frame_obj f -> ftype f = 4 -> hex16 s -> Forall mask_digit (firstn 8 s) ->
  exists f' a, mbus_frame_select_secondary_pack f s = Ok (0, f') /\ address_text a s /\ bytes a /\
    denotes f' (Long 0x73 0xFD 0x52 a).
Proof.
  intros f s Ho Ht Hx Hm. destruct (select_pack f s Ho Hx Hm) as (f' & a & E & A & Hb & _ & D & _). exists f', a. auto.
Qed.
(** C42: the two fit together: for a slave whose identification is decimal (or F) the reported address selects with
    exactly its own address bytes. *)
Theorem C42_round_trip :
  forall f h its t, var_telegram f h its t -> Forall bcd_byte (firstn 4 h) ->
  exists s, mbus_frame_get_secondary_address f = Ok (Some s) /\ mbus_is_secondary_address s = true /\
    forall g, frame_obj g -> ftype g = 4 ->
    exists g', mbus_frame_select_secondary_pack g s = Ok (0, g') /\ denotes g' (Long 0x73 0xFD 0x52 (firstn 8 h)).
Proof. exact address_round_trip. Qed.
Print Assumptions C42_reported_address.
Print Assumptions C42_selection_telegram.
Print Assumptions C42_round_trip.
Example C42_nonvacuous :
  var_telegram small_frame ex_header small_its None /\ Forall bcd_byte (firstn 4 ex_header) /\
  (exists s, mbus_frame_get_secondary_address small_frame = Ok (Some s) /\ length s = 16%nat) /\
  hex16 (cstr "1234FFFF2c2d0b0A") /\ Forall mask_digit (firstn 8 (cstr "1234FFFF2c2d0b0A")) /\
  exists g, mbus_frame_select_secondary_pack (mbus_frame_new 4) (cstr "1234FFFF2c2d0b0A") = Ok (0, g) /\
    firstn 8 (fdata g) = [0xFF; 0xFF; 0x34; 0x12; 0x2C; 0x2D; 0x0B; 0x0A].
Proof.
  split; [exact small_telegram|]. split; [apply Forall_forall; intros x H; vm_compute in H; unfold bcd_byte; intuition; subst; cbn; try lia; auto; right; lia|].
  split; [eexists; split; [vm_compute; reflexivity|reflexivity]|].
  split; [split; [reflexivity|apply Forall_forall; intros x H; vm_compute in H; intuition (subst; discriminate)]|].
  split; [apply Forall_forall; intros x H; vm_compute in H; unfold mask_digit; lia|].
  eexists. split; vm_compute; reflexivity.
Qed.

(** C43: primary addresses are 0..255, secondary addresses are exactly the strings of 16 hexadecimal digits, in either
    case; anything else is refused by the packing function, which then leaves the frame alone. *)
Theorem C43_primary :
  forall a, mbus_is_primary_address a = true <-> 0 <= a <= 255.
Proof. intros a. unfold mbus_is_primary_address. lia. Qed.
Theorem C43_secondary :
  forall s, mbus_is_secondary_address s = true <-> hex16 s.
Proof. exact secondary_spec. Qed.
Theorem C43_refused :
  forall f s, ~ hex16 s -> mbus_frame_select_secondary_pack f s = Ok (-1, f).
Proof.
  intros f s H. unfold mbus_frame_select_secondary_pack. destruct (mbus_is_secondary_address s) eqn:E; [|reflexivity].
  apply secondary_spec in E. contradiction.
Qed.
(** C43 fails for the digits A-E in the identification number: they are accepted, but packed as 1-5. *)
Theorem C43_hex_digit_refuted :
  exists s f, mbus_is_secondary_address s = true /\ mbus_frame_select_secondary_pack (mbus_frame_new 4) s = Ok (0, f) /\
    forall a, denotes f (Long 0x73 0xFD 0x52 a) -> ~ address_text a s.
Proof.
  exists (cstr "A0000000FFFFFFFF"). eexists. split; [reflexivity|]. split; [vm_compute; reflexivity|].
  intros a (_ & _ & _ & _ & Hl & Hf) (a0 & a1 & a2 & a3 & a4 & a5 & a6 & a7 & E & _ & R & _). subst a. cbn in Hf.
  injection Hf as <- <- <- <- _ _ _ _. vm_compute in R. discriminate.
Qed.
(** ... for every such digit (shown at the first position). *)
Theorem C43_mispacked :
  forall c v, digit_value c = Some v -> 10 <= v <= 14 ->
  exists s f, mbus_is_secondary_address s = true /\ nth 0 s 0 = c /\
    mbus_frame_select_secondary_pack (mbus_frame_new 4) s = Ok (0, f) /\ nth 3 (fdata f) 0 / 16 = v - 9.
Proof.
  intros c v E Hv. exists (c :: cstr "0000000FFFFFFFF").
  assert (Hc : c = v + 55 \/ c = v + 87).
  { revert E. unfold digit_value. destruct ((48 <=? c) && (c <=? 57)) eqn:?; [intros H; injection H; lia|].
    destruct ((65 <=? c) && (c <=? 70)) eqn:?; [intros H; injection H; lia|].
    destruct ((97 <=? c) && (c <=? 102)) eqn:?; [intros H; injection H; lia|discriminate]. }
  assert (V : v = 10 \/ v = 11 \/ v = 12 \/ v = 13 \/ v = 14) by lia.
  destruct V as [->|[->|[->|[->| ->]]]], Hc as [->| ->]; (eexists; split; [reflexivity|]; split; [reflexivity|]; split; [vm_compute; reflexivity|reflexivity]).
Qed.
Print Assumptions C43_primary.
Print Assumptions C43_secondary.
Print Assumptions C43_refused.
Print Assumptions C43_hex_digit_refuted.
Print Assumptions C43_mispacked.
Example C43_nonvacuous : hex16 (cstr "1234567812345678") /\ ~ hex16 (cstr "123456781234567") /\ ~ hex16 (cstr "123456781234567G") /\
  (digit_value 66 = Some 11).
Proof.
  split; [apply secondary_spec; reflexivity|]. split; [intros H; apply secondary_spec in H; discriminate|].
  split; [intros H; apply secondary_spec in H; discriminate|reflexivity].
Qed.
