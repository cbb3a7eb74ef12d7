(** Proofs about address validation and secondary addresses. *)
From Verif Require Import CBase PBase CStr MFrame MCodec MVar MText SText SCodec SVar SXml MXml PText PText2 PText3 PCodec PCodec2 PXml3 PXml4 SWire SFrame PFrame MSecond SSecond.

Lemma isxdigit_spec c : isxdigit c = true <-> digit_value c <> None.
Proof.
  unfold isxdigit, digit_value. destruct ((48 <=? c) && (c <=? 57)); [intuition discriminate|].
  destruct ((65 <=? c) && (c <=? 70)); [intuition discriminate|]. destruct ((97 <=? c) && (c <=? 102)); cbn; intuition discriminate.
Qed.
Lemma secondary_spec s : mbus_is_secondary_address s = true <-> hex16 s.
Proof.
  unfold mbus_is_secondary_address, hex16. rewrite andb_true_iff, Nat.eqb_eq, forallb_forall, Forall_forall.
  split; intros [H1 H2]; (split; [assumption|]); intros x Hx; apply isxdigit_spec; auto.
Qed.

Lemma digit_bounds c v : digit_value c = Some v -> 0 <= v < 16 /\ hex_digit_value c = v.
Proof.
  unfold digit_value, hex_digit_value. destruct ((48 <=? c) && (c <=? 57)) eqn:E1.
  { intros H. injection H as <-. destruct (Z.leb_spec c 57); lia. }
  destruct ((65 <=? c) && (c <=? 70)) eqn:E2.
  { intros H. injection H as <-. destruct (Z.leb_spec c 57); [lia|]. destruct (Z.leb_spec c 70); lia. }
  destruct ((97 <=? c) && (c <=? 102)) eqn:E3; [|discriminate].
  intros H. injection H as <-. destruct (Z.leb_spec c 57); [lia|]. destruct (Z.leb_spec c 70); lia.
Qed.
Lemma mask_digit_spec c : mask_digit c -> exists v, digit_value c = Some v /\ 0 <= v < 16 /\
  (if (c =? 70) || (c =? 102) then 0x0F else Z.land 0x0F (c - 48)) = v.
Proof.
  intros [H|[->| ->]]; [|exists 15; repeat split; lia|exists 15; repeat split; lia].
  exists (c - 48). unfold digit_value. destruct ((48 <=? c) && (c <=? 57)) eqn:E; [|lia]. split; [reflexivity|]. split; [lia|].
  destruct ((c =? 70) || (c =? 102)) eqn:E2; [lia|]. rewrite Z.land_comm. change 0x0F with (Z.ones 4). rewrite Z.land_ones by lia.
  apply Z.mod_small. lia.
Qed.

Definition nibs : list Z := map Z.of_nat (seq 0 16).
Lemma in_nibs v : 0 <= v < 16 -> In v nibs.
Proof. intros H. apply in_map_iff. exists (Z.to_nat v). split; [lia|]. apply in_seq. lia. Qed.
Lemma nib_pair a b : 0 <= a < 16 -> 0 <= b < 16 ->
  u8 (Z.lor (u8 (Z.lor 0 (Z.shiftl a (4 * 1)))) (Z.shiftl b (4 * (1 - 1)))) = 16 * a + b.
Proof.
  intros Ha Hb.
  assert (T : forallb (fun a => forallb (fun b => u8 (Z.lor (u8 (Z.lor 0 (Z.shiftl a (4 * 1)))) (Z.shiftl b (4 * (1 - 1)))) =? 16 * a + b) nibs) nibs = true)
    by (vm_compute; reflexivity).
  rewrite forallb_forall in T. specialize (T a (in_nibs a Ha)). rewrite forallb_forall in T. specialize (T b (in_nibs b Hb)). lia.
Qed.

Lemma read2 a b va vb : digit_value a = Some va -> digit_value b = Some vb -> 0 <= va < 16 -> 0 <= vb < 16 ->
  read_nat 16 [a; b] = Some (16 * va + vb).
Proof.
  intros Ea Eb Ha Hb. cbn [read_nat read_digits]. rewrite Ea. destruct (Z.ltb_spec va 16); [|lia]. rewrite Eb. destruct (Z.ltb_spec vb 16); [|lia].
  f_equal. lia.
Qed.
Lemma strtol2 a b va vb : digit_value a = Some va -> digit_value b = Some vb -> strtol16 [a; b] = 16 * va + vb.
Proof. intros Ea Eb. unfold strtol16. cbn [fold_left]. apply digit_bounds in Ea, Eb. lia. Qed.

Lemma id_pair a b va vb s d j : mask_digit a -> mask_digit b -> digit_value a = Some va -> digit_value b = Some vb ->
  nth_error d j = Some 0 ->
  id_loop (a :: b :: s) d j 1 = id_loop s (upd d j (16 * va + vb)) (j - 1) 1.
Proof.
  intros Ma Mb Ea Eb Hd.
  destruct (mask_digit_spec a Ma) as (va' & Ea' & Ra & Na). destruct (mask_digit_spec b Mb) as (vb' & Eb' & Rb & Nb).
  assert (X : va' = va) by congruence. rewrite X in Ra, Na. clear X. assert (X : vb' = vb) by congruence. rewrite X in Rb, Nb. clear X.
  assert (Hj : (j < length d)%nat) by (apply nth_error_Some; congruence).
  cbn [id_loop]. rewrite Na, Nb. unfold rd. rewrite Hd. cbn [bind]. unfold wr at 1. destruct (Nat.ltb_spec j (length d)); [|lia]. cbn [bind].
  change (1 - 1 <? 0) with false. cbv iota.
  set (x := u8 (Z.lor 0 (Z.shiftl va (4 * 1)))).
  assert (L : forall v, length (upd d j v) = length d) by (intros; apply upd_length).
  assert (N : forall v, nth_error (upd d j v) j = Some v).
  { intros v. clear - Hj. revert j Hj. induction d as [|y d IH]; intros [|j] Hj; cbn in *; try lia; [reflexivity|apply IH; lia]. }
  rewrite N. cbn [bind]. unfold wr. rewrite L. destruct (Nat.ltb_spec j (length d)); [|lia]. cbn [bind].
  change (1 - 1 - 1 <? 0) with true. cbv iota.
  assert (U : forall v v', upd (upd d j v) j v' = upd d j v').
  { intros v v'. clear. revert j. induction d as [|y d IH]; intros [|j]; cbn; [reflexivity|reflexivity|reflexivity|f_equal; apply IH]. }
  rewrite U. unfold x. rewrite nib_pair by assumption. reflexivity.
Qed.

Lemma strtol4 a b c d va vb vc vd : digit_value a = Some va -> digit_value b = Some vb -> digit_value c = Some vc -> digit_value d = Some vd ->
  Z.land (Z.shiftr (strtol16 [a; b; c; d]) 8) 0xFF = 16 * va + vb /\ Z.land (strtol16 [a; b; c; d]) 0xFF = 16 * vc + vd.
Proof.
  intros Ea Eb Ec Ed. apply digit_bounds in Ea, Eb, Ec, Ed. unfold strtol16. cbn [fold_left].
  destruct Ea as [Ra ->], Eb as [Rb ->], Ec as [Rc ->], Ed as [Rd ->].
  change 0xFF with (Z.ones 8). rewrite !Z.land_ones, Z.shiftr_div_pow2 by lia. change (2 ^ 8) with 256. lia.
Qed.
Lemma land255 a b : 0 <= a < 16 -> 0 <= b < 16 -> Z.land (16 * a + b) 0xFF = 16 * a + b.
Proof. intros. change 0xFF with (Z.ones 8). rewrite Z.land_ones by lia. change (2 ^ 8) with 256. lia. Qed.
Lemma id_step a b va vb s d j : mask_digit a -> mask_digit b -> digit_value a = Some va -> digit_value b = Some vb ->
  nth_error d j = Some 0 ->
  id_loop (a :: b :: s) d j 1 = id_loop s (upd d j (16 * va + vb)) (j - 1) 1.
Proof. apply id_pair. Qed.

Lemma select_pack f s : frame_obj f -> hex16 s -> Forall mask_digit (firstn 8 s) ->
  exists f' a, mbus_frame_select_secondary_pack f s = Ok (0, f') /\ address_text a s /\ bytes a /\
    frame_obj f' /\ (ftype f = 4 -> denotes f' (Long 0x73 0xFD 0x52 a)) /\ start1 f' = start1 f /\ start2 f' = start2 f /\ stop f' = stop f /\ ftype f' = ftype f.
Proof.
  intros Ho Hx Hm. assert (HS := Hx). destruct Hx as [Hl Hd].
  do 16 (destruct s as [|? s]; [cbn in Hl; lia|]). destruct s; [|cbn in Hl; lia]. clear Hl.
  repeat match goal with H : Forall (fun x => digit_value x <> None) (?c :: _) |- _ => inversion_clear H end.
  cbn [firstn] in Hm. repeat match goal with H : Forall mask_digit (?c :: _) |- _ => inversion_clear H end.
  repeat match goal with H : Forall _ [] |- _ => clear H end.
  repeat match goal with H : digit_value ?c <> None |- _ =>
    let v := fresh "v" in destruct (digit_value c) as [v|] eqn:?; [clear H|congruence];
    match goal with E : digit_value c = Some v |- _ => pose proof (proj1 (digit_bounds c v E)) end end.
  unfold mbus_frame_select_secondary_pack. rewrite (proj2 (secondary_spec _) HS). cbn [negb].
  cbn [set_control set_address set_ci fdata].
  unfold frame_obj, DATA_LEN in Ho. cbn [firstn skipn].
  repeat (erewrite strtol2 by eassumption).
  destruct f as [fs1 fl1 fl2 fs2 fc fa fci fck fst fd fty fds fn]. cbn [fdata] in Ho |- *.
  do 8 (destruct fd as [|? fd]; [cbn in Ho; lia|]).
  match goal with |- context [strtol16 [?a; ?b; ?c; ?d]] =>
    destruct (strtol4 a b c d _ _ _ _ ltac:(eassumption) ltac:(eassumption) ltac:(eassumption) ltac:(eassumption)) as [S4a S4b]; rewrite S4a, S4b end.
  rewrite !land255 by assumption.
  match goal with |- context [wr _ 7 ?b] => remember b as b7 eqn:E7 end.
  match goal with |- context [wr _ 6 ?b] => remember b as b6 eqn:E6 end.
  match goal with |- context [wr _ 4 ?b] => remember b as b4 eqn:E4 end.
  match goal with |- context [wr _ 5 ?b] => remember b as b5 eqn:E5 end.
  cbn [wr put_list bind length Nat.ltb Nat.leb upd].
  erewrite id_pair; [|eassumption..|reflexivity]. cbn [upd Nat.sub].
  erewrite id_pair; [|eassumption..|reflexivity]. cbn [upd Nat.sub].
  erewrite id_pair; [|eassumption..|reflexivity]. cbn [upd Nat.sub].
  erewrite id_pair; [|eassumption..|reflexivity]. cbn [upd Nat.sub]. cbn [id_loop bind].
  match goal with |- context [set_data _ (?a0 :: ?a1 :: ?a2 :: ?a3 :: ?a4 :: ?a5 :: ?a6 :: ?a7 :: _) 8] =>
    eexists _, [a0; a1; a2; a3; a4; a5; a6; a7] end.
  split; [reflexivity|]. split; [|split; [|split; [|split]]].
  - do 8 eexists. split; [reflexivity|]. split; [reflexivity|]. cbn [firstn skipn]. subst b7 b6 b5 b4.
    repeat split; try (apply read2; assumption).
    cbn [read_nat read_digits].
    repeat match goal with E : digit_value ?c = Some ?v |- context [digit_value ?c] => rewrite E; destruct (Z.ltb_spec v 16); [|lia] end.
    f_equal. unfold le. cbn [fold_right]. lia.
  - subst b7 b6 b5 b4. unfold bytes, is_byte. repeat constructor; lia.
  - unfold frame_obj, DATA_LEN. cbn in *. lia.
  - intros Ht. cbn in Ht. cbn [denotes ftype set_data control address ctrl_info data_size fdata]. repeat split; assumption.
  - cbn. repeat split; reflexivity.
Qed.

Lemma hex_upper_char_digit c : hex_char c -> digit_value c <> None.
Proof.
  unfold hex_char, digit_value. intros H.
  destruct ((48 <=? c) && (c <=? 57)) eqn:?; [discriminate|]. destruct ((65 <=? c) && (c <=? 70)) eqn:?; [discriminate|].
  destruct ((97 <=? c) && (c <=? 102)) eqn:?; [discriminate|lia].
Qed.
Lemma padded n k : 0 <= n < 16 ^ Z.of_nat (S k) ->
  length (zpad (S k) (fmt_X n)) = S k /\ read_nat 16 (zpad (S k) (fmt_X n)) = Some n /\
  (Forall (fun c => digit_value c <> None) (zpad (S k) (fmt_X n)) /\ capitals (zpad (S k) (fmt_X n))).
Proof.
  intros H. pose proof (fmt_X_len n k H). rewrite zpad_len. split; [lia|]. split.
  - apply zpad_read; [lia|]. apply fmt_X_read. lia.
  - split; [apply zpad_chars; [discriminate|]; eapply Forall_impl; [|apply fmt_X_chars; lia]; intros c Hc; apply hex_upper_char_digit; exact Hc|].
    apply zpad_chars; [lia|]. apply fmt_X_capitals. lia.
Qed.
Lemma cut_at (A B : list Z) n : length A = n -> firstn n (A ++ B) = A /\ skipn n (A ++ B) = B.
Proof. intros <-. split; [apply firstn_app_exact|apply skipn_app_exact]; reflexivity. Qed.
Lemma five (A B C D E : list Z) : length A = 8%nat -> length B = 2%nat -> length C = 2%nat -> length D = 2%nat -> length E = 2%nat ->
  let s := A ++ B ++ C ++ D ++ E in
  length s = 16%nat /\ firstn 8 s = A /\ firstn 2 (skipn 8 s) = B /\ firstn 2 (skipn 10 s) = C /\ firstn 2 (skipn 12 s) = D /\ firstn 2 (skipn 14 s) = E.
Proof.
  intros HA HB HC HD HE.
  do 8 (destruct A as [|? A]; [discriminate|]). destruct A; [|discriminate].
  do 2 (destruct B as [|? B]; [discriminate|]). destruct B; [|discriminate].
  do 2 (destruct C as [|? C]; [discriminate|]). destruct C; [|discriminate].
  do 2 (destruct D as [|? D]; [discriminate|]). destruct D; [|discriminate].
  do 2 (destruct E as [|? E]; [discriminate|]). destruct E; [|discriminate].
  repeat split; reflexivity.
Qed.
Lemma get_address_capitals f h its t : var_telegram f h its t ->
  exists s, mbus_frame_get_secondary_address f = Ok (Some s) /\ hex16 s /\ capitals s /\ address_text (firstn 8 h) s.
Proof.
  intros T. pose proof (telegram_hbytes f h its t T) as Hb. assert (Hl : length h = 12%nat) by apply T.
  unfold mbus_frame_get_secondary_address. assert (Hci : ctrl_info f = 0x72) by apply T. rewrite Hci. cbn [Z.eqb negb].
  rewrite (telegram_parse f h its t fd_zero T). cbn [bind d_var dvar_of v_header]. change (0 =? -1) with false. cbv iota.
  cbn [v_header d_var dvar_of].
  do 8 (destruct h as [|? h]; [cbn in Hl; lia|]). cbn [firstn].
  rewrite bcd_hex_spec; [|assumption|lia|cbn in *; lia]. cbn [bind rd nth_error firstn]. change (114 =? 114)%positive with true. cbn [negb].
  unfold bytes in *. repeat match goal with H : Forall is_byte (?c :: _) |- _ => inversion_clear H end.
  unfold is_byte in *.
  match goal with |- context [zpad 8 (fmt_X ?n)] => destruct (padded n 7) as (L0 & R0 & D0 & K0); [unfold le; cbn [fold_right]; change (16 ^ Z.of_nat 8) with 4294967296; lia|] end.
  change (zpad (S 7)) with (zpad 8) in *.
  unfold fmt_X2.
  destruct (padded z3 1) as (L4 & R4 & D4 & K4); [change (16 ^ Z.of_nat 2) with 256; lia|]. destruct (padded z4 1) as (L5 & R5 & D5 & K5); [change (16 ^ Z.of_nat 2) with 256; lia|].
  destruct (padded z5 1) as (L6 & R6 & D6 & K6); [change (16 ^ Z.of_nat 2) with 256; lia|]. destruct (padded z6 1) as (L7 & R7 & D7 & K7); [change (16 ^ Z.of_nat 2) with 256; lia|].
  change (zpad (S 1)) with (zpad 2) in *.
  match goal with |- context [Some (?A ++ ?B ++ ?C ++ ?D ++ ?E)] =>
    destruct (five A B C D E L0 L4 L5 L6 L7) as (S16 & F0 & F4 & F5 & F6 & F7) end.
  eexists. split; [reflexivity|]. split.
  - split; [exact S16|]. apply Forall_app; split; [exact D0|]. apply Forall_app; split; [exact D4|]. apply Forall_app; split; [exact D5|]. apply Forall_app; split; [exact D6|exact D7].
  - split. { apply Forall_app; split; [exact K0|]. apply Forall_app; split; [exact K4|]. apply Forall_app; split; [exact K5|]. apply Forall_app; split; [exact K6|exact K7]. }
    exists z, z0, z1, z2, z3, z4, z5, z6. split; [reflexivity|]. split; [exact S16|].
    rewrite F0, F4, F5, F6, F7. auto.
Qed.
Lemma get_address f h its t : var_telegram f h its t ->
  exists s, mbus_frame_get_secondary_address f = Ok (Some s) /\ hex16 s /\ address_text (firstn 8 h) s.
Proof. intros T. destruct (get_address_capitals f h its t T) as (s & E & X & _ & A). eauto. Qed.

Lemma le4_inj a b c d a' b' c' d' : is_byte a -> is_byte b -> is_byte c -> is_byte d -> is_byte a' -> is_byte b' -> is_byte c' -> is_byte d' ->
  le [a; b; c; d] = le [a'; b'; c'; d'] -> a = a' /\ b = b' /\ c = c' /\ d = d'.
Proof. unfold is_byte, le. cbn [fold_right]. lia. Qed.
Lemma address_inj a a' s : bytes a -> bytes a' -> address_text a s -> address_text a' s -> a = a'.
Proof.
  intros Hb Hb' (a0 & a1 & a2 & a3 & a4 & a5 & a6 & a7 & E & _ & H1 & H2 & H3 & H4 & H5)
    (c0 & c1 & c2 & c3 & c4 & c5 & c6 & c7 & E' & _ & G1 & G2 & G3 & G4 & G5).
  subst a a'. unfold bytes in *. repeat match goal with H : Forall is_byte (?c :: _) |- _ => inversion_clear H end.
  assert (X : le [a0; a1; a2; a3] = le [c0; c1; c2; c3]) by congruence. apply le4_inj in X; [|assumption..]. 
  destruct X as (-> & -> & -> & ->). congruence.
Qed.

Lemma digit_mask c v : digit_value c = Some v -> v <= 9 \/ v = 15 -> mask_digit c.
Proof.
  unfold digit_value, mask_digit. destruct ((48 <=? c) && (c <=? 57)) eqn:?; [lia|].
  destruct ((65 <=? c) && (c <=? 70)) eqn:?; [intros H; injection H; lia|].
  destruct ((97 <=? c) && (c <=? 102)) eqn:?; [intros H; injection H; lia|discriminate].
Qed.
Lemma address_mask a s : hex16 s -> address_text a s -> bytes a -> Forall bcd_byte (firstn 4 a) -> Forall mask_digit (firstn 8 s).
Proof.
  intros [Hl Hd] (a0 & a1 & a2 & a3 & a4 & a5 & a6 & a7 & E & _ & H1 & _) Hb Hc. subst a. cbn [firstn] in Hc.
  do 16 (destruct s as [|? s]; [cbn in Hl; lia|]). destruct s; [|cbn in Hl; lia]. clear Hl. cbn [firstn] in H1 |- *.
  repeat match goal with H : Forall (fun x => digit_value x <> None) (?c :: _) |- _ => inversion_clear H end.
  unfold bytes in *. repeat match goal with H : Forall is_byte (?c :: _) |- _ => inversion_clear H end.
  repeat match goal with H : Forall bcd_byte (?c :: _) |- _ => inversion_clear H end.
  repeat match goal with H : Forall _ [] |- _ => clear H end.
  repeat match goal with H : digit_value ?c <> None |- _ =>
    let v := fresh "v" in destruct (digit_value c) as [v|] eqn:?; [clear H|congruence];
    match goal with E : digit_value c = Some v |- _ => pose proof (proj1 (digit_bounds c v E)) end end.
  cbn [read_nat read_digits] in H1.
  repeat match goal with E : digit_value ?c = Some ?v, H : context [digit_value ?c] |- _ => lazymatch H with E => fail | _ => rewrite E in H; destruct (Z.ltb_spec v 16); [|lia] end end.
  assert (H1' := f_equal (fun o => match o with Some x => x | None => 0 end) H1). cbv beta iota in H1'. clear H1.
  assert (X : le [16 * v8 + v7; 16 * v10 + v9; 16 * v12 + v11; 16 * v14 + v13] = le [a0; a1; a2; a3]).
  { etransitivity; [|exact H1']. unfold le. cbn [fold_right]. lia. }
  apply le4_inj in X; [|unfold is_byte in *; lia..]. destruct X as (X0 & X1 & X2 & X3). subst a0 a1 a2 a3.
  assert (N : forall x y, 0 <= x < 16 -> 0 <= y < 16 -> bcd_byte (16 * x + y) -> (x <= 9 \/ x = 15) /\ (y <= 9 \/ y = 15)).
  { clear. intros x y Hx Hy (_ & A & C). replace ((16 * x + y) mod 16) with y in A by lia. replace ((16 * x + y) / 16) with x in C by lia. auto. }
  repeat match goal with H : bcd_byte (16 * ?x + ?y) |- _ => apply N in H; [destruct H|assumption..] end.
  repeat (constructor; [eapply digit_mask; [eassumption|assumption]|]). constructor.
Qed.

(** Selecting by the reported address sends back the bytes of the header. *)
Lemma address_round_trip f h its t : var_telegram f h its t -> Forall bcd_byte (firstn 4 h) ->
  exists s, mbus_frame_get_secondary_address f = Ok (Some s) /\ mbus_is_secondary_address s = true /\
    forall g, frame_obj g -> ftype g = 4 -> exists g', mbus_frame_select_secondary_pack g s = Ok (0, g') /\ denotes g' (Long 0x73 0xFD 0x52 (firstn 8 h)).
Proof.
  intros T Hc. destruct (get_address f h its t T) as (s & E & Hx & Ha). exists s. split; [assumption|]. split; [apply secondary_spec; assumption|].
  pose proof (telegram_hbytes f h its t T) as Hb. assert (Hl : length h = 12%nat) by apply T.
  assert (Hb8 : bytes (firstn 8 h)) by (apply bytes_firstn; assumption).
  intros g Hg Ht.
  assert (Hm : Forall mask_digit (firstn 8 s)).
  { apply (address_mask (firstn 8 h)); try assumption. rewrite firstn_firstn. exact Hc. }
  destruct (select_pack g s Hg Hx Hm) as (g' & a & Eg & Aa & Ba & _ & D & _).
  exists g'. split; [assumption|]. rewrite (address_inj (firstn 8 h) a s Hb8 Ba Ha Aa). apply D. assumption.
Qed.
