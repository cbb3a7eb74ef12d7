(** Property theorems C01-C09, C51, C52 (telegram layer).
    Vocabulary: SWire.v (telegrams, wire images), SFrame.v (frame objects). *)
From Verif Require Import CBase MFrame SWire SFrame PFrame PFrame2.

(** C01: packing a frame and parsing the bytes into any object gives the telegram back. *)
Theorem C01_pack_parse_roundtrip :
  forall f t buf dsize g,
  frame_obj f -> delimiters f -> denotes f t -> valid t ->
  0 <= dsize <= Z.of_nat (length buf) -> Z.of_nat (length (wire t)) <= dsize -> frame_obj g ->
  exists n f' buf' g',
    mbus_frame_pack f buf dsize = Ok (n, f', buf') /\
    firstn (Z.to_nat n) buf' = wire t /\
    mbus_parse g (firstn (Z.to_nat n) buf') = Ok (0, g') /\ denotes g' t /\ fnext g' = 0.
Proof. exact pack_parse. Qed.
Print Assumptions C01_pack_parse_roundtrip.

Definition ex_long : frame :=
  mkF 0x68 99 98 0x68 0x08 5 0x72 77 0x16 ([1; 2; 0xFF] ++ repeat 0 249) 3 T_LONG 0.
Example C01_nonvacuous :
  frame_obj ex_long /\ delimiters ex_long /\ denotes ex_long (Long 0x08 5 0x72 [1; 2; 0xFF]) /\
  valid (Long 0x08 5 0x72 [1; 2; 0xFF]) /\
  mbus_frame_pack ex_long (repeat 0xAA 14) 14
  = Ok (12, with_stale ex_long 6 6 0x81,
        [0x68; 6; 6; 0x68; 8; 5; 0x72; 1; 2; 0xFF; 0x81; 0x16; 0xAA; 0xAA]).
Proof.
  unfold frame_obj, delimiters, denotes, valid, byte_range, long_code, ex_long, T_LONG.
  repeat match goal with |- _ /\ _ => split end; try reflexivity; try (vm_compute; intuition congruence);
    repeat constructor; cbn; try lia.
Qed.

(** C01, remaining case: a frame of type LONG without payload is the CONTROL telegram on the wire. *)
Theorem C01_long_without_payload :
  forall f buf dsize, frame_obj f -> delimiters f -> ftype f = 4 -> data_size f = 0 ->
  9 <= dsize <= Z.of_nat (length buf) ->
  exists f', mbus_frame_pack f buf dsize
   = Ok (9, f', wire (Control (control f) (address f) (ctrl_info f)) ++ skipn 9 buf).
Proof.
  intros f buf dsize Ho (_ & _ & _ & D) Ht Hd Hs.
  pose proof (pack_spec f buf dsize Ho ltac:(lia) ltac:(lia)) as H. unfold pack_bytes in H.
  rewrite Ht, Hd in H. cbn in H. rewrite !Z.add_0_r in H. destruct (D Ht) as (E1 & E2 & E3).
  rewrite E1, E2, E3 in H. 
  destruct (Z.leb_spec 9 dsize); [|lia]. eexists. exact H.
Qed.
Print Assumptions C01_long_without_payload.

(** C02: an accepted telegram (other than ACK) re-packs to exactly the received bytes. *)
Theorem C02_parse_pack_roundtrip :
  forall f bs f', frame_obj f -> bytes bs -> mbus_parse f bs = Ok (0, f') ->
  mbus_frame_type f' <> 1 ->
  forall buf, (length bs <= length buf)%nat ->
  exists f2, mbus_frame_pack f' buf (Z.of_nat (length bs))
  = Ok (Z.of_nat (length bs), f2, bs ++ skipn (length bs) buf).
Proof. exact parse_pack. Qed.
Print Assumptions C02_parse_pack_roundtrip.

Example C02_nonvacuous :
  exists f', mbus_parse frame_zero [0x10; 0x5B; 7; 0x62; 0x16] = Ok (0, f') /\ mbus_frame_type f' <> 1.
Proof. eexists. split; [vm_compute; reflexivity|]. vm_compute. discriminate. Qed.

(** C03: the return code on every buffer. *)
Theorem C03_parse_return_codes :
  forall f bs r f', frame_obj f -> bytes bs -> mbus_parse f bs = Ok (r, f') ->
  let n := Z.of_nat (length bs) in
  let l := nth 1 bs 0 in
  (r = -1 <-> bs = []) /\
  (r = -4 <-> bs <> [] /\ nth 0 bs 0 <> 0xE5 /\ nth 0 bs 0 <> 0x10 /\ nth 0 bs 0 <> 0x68) /\
  (0 < r <-> (nth 0 bs 0 = 0x10 /\ n < 5 /\ r = 5 - n) \/
             (nth 0 bs 0 = 0x68 /\ n < 3 /\ r = 3 - n) \/
             (nth 0 bs 0 = 0x68 /\ 3 <= n < 6 + l /\ 3 <= l /\ nth 2 bs 0 = l /\ r = 6 + l - n)) /\
  (r = -2 <-> (nth 0 bs 0 = 0x10 /\ n > 5) \/
              (nth 0 bs 0 = 0x68 /\ 3 <= n /\ (l < 3 \/ nth 2 bs 0 <> l \/ n > 6 + l))) /\
  (r = -3 <-> ~ well_formed bs /\ ((nth 0 bs 0 = 0x10 /\ n = 5) \/
              (nth 0 bs 0 = 0x68 /\ 3 <= l /\ nth 2 bs 0 = l /\ n = 6 + l))) /\
  (r = 0 <-> well_formed bs \/ nth 0 bs 0 = 0xE5).
Proof. exact parse_codes. Qed.
Print Assumptions C03_parse_return_codes.

(** C03: an accepted buffer is the wire image of a valid telegram and the object carries it
    (an ACK byte may be followed by further bytes). *)
Theorem C03_accepted_content :
  forall f bs f', frame_obj f -> bytes bs -> mbus_parse f bs = Ok (0, f') ->
  exists t, valid t /\ denotes f' t /\ (bs = wire t \/ (t = Ack /\ hd 0 bs = 0xE5)).
Proof. exact parse_zero_denotes. Qed.
Print Assumptions C03_accepted_content.

(** Every return code occurs. *)
Example C03_nonvacuous :
  frame_obj frame_zero /\
  Forall (fun p => bytes (fst p) /\ exists f', mbus_parse frame_zero (fst p) = Ok (snd p, f'))
    [([], -1); ([0x42; 1], -4); ([0x10; 0x5B], 3); ([0x68; 3], 1); ([0x68; 4; 4; 0x68], 6); ([0x10; 0x5B; 7; 0x62; 0x16; 0], -2);
     ([0x68; 4; 5; 0x68], -2); ([0x10; 0x5B; 7; 0x63; 0x16], -3); ([0x68; 3; 3; 0x68; 0x53; 1; 0xBD; 0x11; 0x16], 0); ([0xE5; 1], 0)].
Proof.
  split; [reflexivity|].
  repeat (apply Forall_cons; [split; [vm_compute; repeat constructor; discriminate|eexists; vm_compute; reflexivity]|]). apply Forall_nil.
Qed.

(** C04: a proper prefix asks for more bytes, never more than are missing. *)
Theorem C04_prefix_needs_more :
  forall f t k, frame_obj f -> valid t -> (0 < k < length (wire t))%nat ->
  exists r f', mbus_parse f (firstn k (wire t)) = Ok (r, f') /\
    0 < r <= Z.of_nat (length (wire t) - k) /\
    ((3 <= k)%nat \/ hd 0 (wire t) = 0x10 -> r = Z.of_nat (length (wire t) - k)).
Proof. exact parse_prefix. Qed.
Print Assumptions C04_prefix_needs_more.

Example C04_nonvacuous :
  valid (Control 0x53 0xFE 0xBD) /\ (0 < 4 < length (wire (Control 0x53 0xFE 0xBD)))%nat.
Proof. unfold valid, byte_range, long_code. cbn. lia. Qed.

(** C05: changing one byte of a SHORT/CONTROL/LONG telegram is detected, except that changing the
    start byte to E5 turns the buffer into an accepted ACK. *)
Theorem C05_corruption_detected_partial :
  forall f t i v, frame_obj f -> valid t -> t <> Ack ->
  (i < length (wire t))%nat -> is_byte v -> v <> nth i (wire t) 0 -> ~ (i = O /\ v = 0xE5) ->
  exists r f', mbus_parse f (replace_at i v (wire t)) = Ok (r, f') /\ r <> 0.
Proof. exact corruption_detected. Qed.
Print Assumptions C05_corruption_detected_partial.

Theorem C05_corrupted_start_refuted :
  exists f t i v f', frame_obj f /\ valid t /\ t <> Ack /\ (i < length (wire t))%nat /\
    is_byte v /\ v <> nth i (wire t) 0 /\
    mbus_parse f (replace_at i v (wire t)) = Ok (0, f') /\ ftype f' = 1.
Proof.
  exists frame_zero, (Short 0x5B 1), O, 0xE5. eexists.
  unfold frame_obj, valid, short_code, byte_range, is_byte. cbn -[replace_at].
  repeat match goal with |- _ /\ _ => split end; try (vm_compute; reflexivity); try lia; discriminate.
Qed.
Print Assumptions C05_corrupted_start_refuted.

Example C05_nonvacuous :
  valid (Short 0x5B 7) /\ Short 0x5B 7 <> Ack /\ (2 < length (wire (Short 0x5B 7)))%nat /\ 8 <> nth 2 (wire (Short 0x5B 7)) 0 /\ ~ (2%nat = O /\ 8 = 0xE5) /\
  exists f', mbus_parse frame_zero (replace_at 2 8 (wire (Short 0x5B 7))) = Ok (-3, f').
Proof.
  split; [unfold valid, byte_range, short_code; cbn; lia|]. split; [discriminate|]. split; [cbn; lia|]. split; [cbn; lia|]. split; [lia|]. eexists. vm_compute. reflexivity.
Qed.

(** C06: every read and write of mbus_parse is inside its array (no UB), for every input. *)
Theorem C06_parse_memory_safe :
  forall f bs, frame_obj f -> bytes bs ->
  exists r f', mbus_parse f bs = Ok (r, f') /\ frame_obj f'.
Proof. exact parse_total. Qed.
Print Assumptions C06_parse_memory_safe.

Example C06_nonvacuous : frame_obj frame_zero /\ bytes [0x68; 255; 255; 0x68; 0].
Proof. split; [reflexivity|]. unfold bytes, is_byte. repeat constructor; lia. Qed.

(** C07: for SHORT, CONTROL and LONG objects mbus_frame_verify returns 0 exactly when the stored
    members, in transmission order, are a well-formed telegram. *)
Theorem C07_verify_exact_partial :
  forall f, frame_obj f -> frame_bytes f -> In (ftype f) [2; 3; 4] ->
  (ftype f = 4 -> 0 <= data_size f <= 252) ->
  exists r, mbus_frame_verify f = Ok r /\ (r = 0 \/ r = -1) /\ (r = 0 <-> well_formed (layout f)).
Proof. exact layout_verify. Qed.
Print Assumptions C07_verify_exact_partial.

(** C07 fails for ACK objects: the result is inverted. *)
Theorem C07_verify_ack_refuted :
  (forall f, ftype f = 1 -> well_formed (layout f) -> mbus_frame_verify f = Ok 1) /\
  (exists f, frame_obj f /\ ftype f = 1 /\ ~ well_formed (layout f) /\ mbus_frame_verify f = Ok 0).
Proof.
  split.
  - intros f Ht (t & Hv & E). unfold layout in E. rewrite Ht in E. cbn [Z.eqb Pos.eqb] in E.
    unfold mbus_frame_verify. rewrite Ht. cbn [Z.eqb Pos.eqb T_ACK].
    destruct t as [|c a|c a ci|c a ci p]; cbn [wire app] in E; try discriminate.
    injection E as ->. reflexivity.
  - exists (mkF 0 0 0 0 0 0 0 0 0 (repeat 0 DATA_LEN) 0 1 0).
    split; [reflexivity|]. split; [reflexivity|]. split; [|reflexivity].
    intros (t & Hv & E). cbn in E. destruct t; cbn [wire app] in E; discriminate.
Qed.
Print Assumptions C07_verify_ack_refuted.

Example C07_nonvacuous :
  let f := mkF 0x68 6 6 0x68 0x08 5 0x72 0x81 0x16 ([1; 2; 0xFF] ++ repeat 0 249) 3 4 0 in
  frame_obj f /\ frame_bytes f /\ mbus_frame_verify f = Ok 0 /\ mbus_frame_verify (with_stale f 6 6 0x80) = Ok (-1).
Proof.
  cbv zeta. split; [reflexivity|]. split; [|split; vm_compute; reflexivity]. unfold frame_bytes. cbn -[repeat]. unfold is_byte.
  repeat match goal with |- _ /\ _ => split end; try lia; try (vm_compute; repeat constructor; discriminate).
Qed.

(** C08: mbus_frame_pack writes at most the given number of bytes or nothing, and fails exactly
    when the type is unknown or the telegram does not fit. *)
Theorem C08_pack_bounds :
  forall f buf dsize, frame_obj f -> (ftype f = 4 -> 0 <= data_size f <= 252) ->
  0 <= dsize <= Z.of_nat (length buf) ->
  exists r f' buf', mbus_frame_pack f buf dsize = Ok (r, f', buf') /\ length buf' = length buf /\
    ((r < 0 /\ buf' = buf) \/
     (0 < r <= dsize /\ skipn (Z.to_nat r) buf' = skipn (Z.to_nat r) buf)) /\
    (r < 0 <-> ~ In (ftype f) [1; 2; 3; 4] \/ dsize < Z.of_nat (length (layout f))) /\
    (0 < r -> r = Z.of_nat (length (layout f))).
Proof. exact pack_bounds. Qed.
Print Assumptions C08_pack_bounds.

(** A buffer that is too small, one that just fits, and an unknown frame type. *)
Example C08_nonvacuous :
  frame_obj ex_long /\
  (exists r f', r < 0 /\ mbus_frame_pack ex_long (repeat 0xAA 12) 11 = Ok (r, f', repeat 0xAA 12)) /\
  (exists f' buf', mbus_frame_pack ex_long (repeat 0xAA 14) 12 = Ok (12, f', buf') /\ skipn 12 buf' = [0xAA; 0xAA]).
Proof. split; [reflexivity|]. split; [eexists _, _; split; [|vm_compute; reflexivity]; lia|]. eexists _, _. split; vm_compute; reflexivity. Qed.

(** C09: derived members are recomputed, whatever was stored before. *)
Theorem C09_pack_recomputes :
  forall f buf dsize r f' buf', frame_obj f -> (ftype f = 4 -> 0 <= data_size f <= 252) ->
  0 <= dsize <= Z.of_nat (length buf) ->
  mbus_frame_pack f buf dsize = Ok (r, f', buf') -> 0 < r ->
  firstn (Z.to_nat r) buf' = layout f' /\
  (ftype f = 2 -> checksum f' = (control f + address f) mod 256) /\
  (ftype f = 3 -> checksum f' = (control f + address f + ctrl_info f) mod 256
                  /\ length1 f' = 3 /\ length2 f' = 3) /\
  (ftype f = 4 -> checksum f' = (control f + address f + ctrl_info f
                    + total (firstn (Z.to_nat (data_size f)) (fdata f))) mod 256
                  /\ length1 f' = data_size f + 3
                  /\ length2 f' = length1 f').
Proof. exact pack_consistent. Qed.
Print Assumptions C09_pack_recomputes.

Theorem C09_pack_ignores_stale :
  forall f l1 l2 ck buf dsize, frame_obj f -> (ftype f = 4 -> 0 <= data_size f <= 252) ->
  0 <= dsize <= Z.of_nat (length buf) ->
  forall r f' buf', mbus_frame_pack f buf dsize = Ok (r, f', buf') ->
  exists f2, mbus_frame_pack (with_stale f l1 l2 ck) buf dsize = Ok (r, f2, buf') /\ (0 < r -> f2 = f').
Proof. exact pack_stale. Qed.
Print Assumptions C09_pack_ignores_stale.

Theorem C09_pack_idempotent :
  forall f buf dsize r f' buf', frame_obj f -> (ftype f = 4 -> 0 <= data_size f <= 252) ->
  0 <= dsize <= Z.of_nat (length buf) ->
  mbus_frame_pack f buf dsize = Ok (r, f', buf') -> 0 < r ->
  mbus_frame_pack f' buf dsize = Ok (r, f', buf').
Proof. exact pack_twice. Qed.
Print Assumptions C09_pack_idempotent.

Example C09_nonvacuous :
  exists f', mbus_frame_pack ex_long (repeat 0xAA 14) 14 = Ok (12, f', [0x68; 6; 6; 0x68; 8; 5; 0x72; 1; 2; 0xFF; 0x81; 0x16; 0xAA; 0xAA]) /\
    checksum ex_long <> checksum f' /\ length1 ex_long <> length1 f' /\
    mbus_frame_pack f' (repeat 0xAA 14) 14 = Ok (12, f', [0x68; 6; 6; 0x68; 8; 5; 0x72; 1; 2; 0xFF; 0x81; 0x16; 0xAA; 0xAA]).
Proof. eexists. split; [vm_compute; reflexivity|]. split; [vm_compute; discriminate|]. split; [vm_compute; discriminate|]. vm_compute. reflexivity. Qed.

(** C51: the slave table is indexed in bounds, exactly for indexes below 250. *)
Theorem C51_slave_data_get :
  forall i, 0 <= i -> (forall j, mbus_slave_data_get i = Some j -> j = i /\ 0 <= j < 250) /\
                      (mbus_slave_data_get i = None <-> 250 <= i).
Proof.
  intros i Hi. unfold mbus_slave_data_get. destruct (Z.ltb_spec i 250); split.
  - intros j E. injection E as <-. lia.
  - split; [discriminate|lia].
  - discriminate.
  - split; auto.
Qed.
Print Assumptions C51_slave_data_get.

Example C51_nonvacuous : mbus_slave_data_get 249 = Some 249 /\ mbus_slave_data_get 250 = None.
Proof. split; reflexivity. Qed.

(** C52: direction of every telegram. *)
Theorem C52_direction :
  forall f t, denotes f t -> valid t ->
  (mbus_frame_direction f = 0x40 <->
     (exists c a, t = Short c a) \/ (In (control f) [0x53; 0x73] /\ t <> Ack)) /\
  (mbus_frame_direction f = 0 <->
     t = Ack \/ (In (control f) [0x08; 0x18; 0x28; 0x38] /\ forall c a, t <> Short c a)).
Proof. exact direction_spec. Qed.
Print Assumptions C52_direction.

Example C52_nonvacuous :
  denotes ex_long (Long 0x08 5 0x72 [1; 2; 0xFF]) /\ valid (Long 0x08 5 0x72 [1; 2; 0xFF]) /\ mbus_frame_direction ex_long = 0 /\
  mbus_frame_direction (mkF 0x10 0 0 0 0x5B 7 0 0x62 0x16 (repeat 0 252) 0 2 0) = 0x40.
Proof.
  destruct C01_nonvacuous as (_ & _ & D & V & _). split; [exact D|]. split; [exact V|]. split; reflexivity.
Qed.
