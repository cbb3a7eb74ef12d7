(** C96: a telegram built in a fresh frame is the telegram of the standard. *)
From Verif Require Import CBase PBase MFrame SWire SFrame PFrame PFrame2 PropFrame SNew.
Local Open Scope Z_scope.

Lemma new_length ty : length (fdata (mbus_frame_new ty)) = 252%nat.
Proof. unfold mbus_frame_new. repeat match goal with |- context [if ?b then _ else _] => destruct b end; reflexivity. Qed.
Lemma fill_ok t : valid t -> let f := fill (mbus_frame_new (type_of t)) t in frame_obj f /\ delimiters f /\ denotes f t /\ fnext f = 0.
Proof.
  intros V f. assert (L := new_length (type_of t)). split; [|split; [|split]].
  - unfold f, frame_obj, fill. destruct t as [|c a|c a ci|c a ci p]; cbn [fdata]; rewrite ?app_length, ?skipn_length, ?L; try reflexivity.
    destruct V as (_ & _ & _ & _ & V). change DATA_LEN with 252%nat. cbn [type_of] in *. lia.
  - destruct t; repeat split; try discriminate; reflexivity.
  - destruct t as [|c a|c a ci|c a ci p]; try (repeat split; reflexivity). cbn [denotes]. do 5 (split; [reflexivity|]). apply firstn_app_exact. reflexivity.
  - destruct t; reflexivity.
Qed.

(** C96: packing the filled object writes the wire image, whatever the buffer held. *)
Theorem C96_packed :
  forall t buf dsize, valid t -> 0 <= dsize <= Z.of_nat (length buf) -> Z.of_nat (length (wire t)) <= dsize ->
  exists f', mbus_frame_pack (fill (mbus_frame_new (type_of t)) t) buf dsize = Ok (Z.of_nat (length (wire t)), f', wire t ++ skipn (length (wire t)) buf).
Proof.
  intros t buf dsize V Hs Hw. destruct (fill_ok t V) as (Ho & Hd & Hn & _). eexists. apply pack_wire; assumption.
Qed.

(** C96: the two functions that complete a frame, in either order, store the wire image in the object; it verifies, and
    a completed frame is left as it is. An acknowledgement is complete when created (mbus_frame_verify answers 1, see
    C07_verify_ack_refuted). *)
Theorem C96_completed :
  forall t, valid t ->
  let f := fill (mbus_frame_new (type_of t)) t in
  exists g, mbus_frame_calc_checksum (snd (mbus_frame_calc_length f)) = Ok (0, g) /\
    (exists h, mbus_frame_calc_checksum f = Ok (0, h) /\ snd (mbus_frame_calc_length h) = g) /\
    layout g = wire t /\ denotes g t /\ fnext g = 0 /\
    (t <> Ack -> mbus_frame_verify g = Ok 0) /\
    mbus_frame_calc_length g = (0, g) /\ mbus_frame_calc_checksum g = Ok (0, g).
Proof.
  intros t V f. destruct (fill_ok t V) as (Ho & Hd & Hn & Hx). fold f in Ho, Hd, Hn, Hx.
  destruct t as [|c a|c a ci|c a ci p].
  - eexists. split; [vm_compute; reflexivity|]. split; [eexists; split; vm_compute; reflexivity|]. split; [reflexivity|]. split; [reflexivity|]. split; [reflexivity|].
    split; [congruence|]. split; vm_compute; reflexivity.
  - set (g := set_checksum (set_lengths f 0) ((c + a) mod 256)).
    assert (K : forall h, ftype h = 2 -> mbus_frame_calc_checksum h = Ok (0, set_checksum h ((control h + address h) mod 256))).
    { intros h Th. unfold mbus_frame_calc_checksum. rewrite calc_checksum_short by exact Th. rewrite Th. reflexivity. }
    exists g. split; [apply K; reflexivity|]. split; [eexists; split; [apply K; reflexivity|reflexivity]|]. split; [reflexivity|]. split; [exact Hn|]. split; [reflexivity|].
    split; [|split; [reflexivity|apply K; reflexivity]]. intros _.
    destruct (verify_spec g) as (r & E & _ & R); [exact Ho|discriminate|discriminate|]. rewrite E. f_equal. apply R. left. cbn. destruct V as [V _]. auto 10.
  - set (g := set_checksum (set_lengths f 3) ((c + a + ci) mod 256)).
    assert (K : forall h, ftype h = 3 -> mbus_frame_calc_checksum h = Ok (0, set_checksum h ((control h + address h + ctrl_info h) mod 256))).
    { intros h Th. unfold mbus_frame_calc_checksum. rewrite calc_checksum_control by exact Th. rewrite Th. reflexivity. }
    exists g. split; [apply K; reflexivity|]. split; [eexists; split; [apply K; reflexivity|reflexivity]|]. split; [reflexivity|]. split; [exact Hn|]. split; [reflexivity|].
    split; [|split; [reflexivity|apply K; reflexivity]]. intros _.
    destruct (verify_spec g) as (r & E & _ & R); [exact Ho|discriminate|discriminate|]. rewrite E. f_equal. apply R. right. left. cbn. destruct V as [V _]. auto 10.
  - destruct V as (V1 & V2 & V3 & V4 & V5).
    assert (LN : calc_length f = Z.of_nat (length p) + 3).
    { unfold calc_length. change (ftype f) with 4. cbn [Z.eqb Pos.eqb T_CONTROL T_LONG]. change (data_size f) with (Z.of_nat (length p)). unfold u8. apply Z.mod_small. lia. }
    set (g := set_checksum (set_lengths f (Z.of_nat (length p) + 3)) ((c + a + ci + total p) mod 256)).
    assert (FD : firstn (length p) (fdata f) = p) by apply Hn.
    assert (K : forall h, ftype h = 4 -> fdata h = fdata f -> data_size h = data_size f -> mbus_frame_calc_checksum h = Ok (0, set_checksum h ((control h + address h + ctrl_info h + total p) mod 256))).
    { intros h Th Fh Dh. unfold mbus_frame_calc_checksum. rewrite calc_checksum_long; [|exact Th|unfold frame_obj; rewrite Fh; exact Ho|rewrite Dh; change (data_size f) with (Z.of_nat (length p)); lia].
      rewrite Th. cbn [Z.eqb Pos.eqb T_ACK T_SHORT T_CONTROL T_LONG orb bind]. rewrite Fh, Dh. change (data_size f) with (Z.of_nat (length p)). rewrite Nat2Z.id, FD. reflexivity. }
    exists g. split; [unfold mbus_frame_calc_length; cbn [snd]; rewrite LN; apply K; reflexivity|].
    split; [eexists; split; [apply K; reflexivity|]; unfold mbus_frame_calc_length; cbn [snd]; match goal with |- set_lengths ?h (calc_length ?h) = _ => change (calc_length h) with (calc_length f) end; rewrite LN; reflexivity|].
    split; [unfold layout; change (ftype g) with 4; cbn [Z.eqb Pos.eqb]; change (data_size g) with (Z.of_nat (length p)); change (fdata g) with (fdata f); rewrite Nat2Z.id, FD; reflexivity|].
    split; [exact Hn|]. split; [reflexivity|]. split; [|split].
    + intros _. destruct (verify_spec g) as (r & E & _ & R); [exact Ho|intros _; change (data_size g) with (Z.of_nat (length p)); lia|discriminate|]. rewrite E. f_equal. apply R. right. right.
      change (data_size g) with (Z.of_nat (length p)). change (fdata g) with (fdata f). rewrite Nat2Z.id, FD. cbn -[Z.add Z.of_nat]. rewrite Z.mod_small by lia. auto 12.
    + unfold mbus_frame_calc_length. change (calc_length g) with (calc_length f). rewrite LN. reflexivity.
    + rewrite K by reflexivity. reflexivity.
Qed.

(** C96: any other type gives an empty object that cannot be completed, verified or packed. *)
Theorem C96_other_types :
  forall ty buf dsize, ~ In ty [1; 2; 3; 4] -> 0 <= dsize <= Z.of_nat (length buf) ->
  let f := mbus_frame_new ty in
  f = mkF 0 0 0 0 0 0 0 0 0 (repeat 0 252) 0 ty 0 /\
  mbus_frame_calc_checksum f = Ok (-1, f) /\ mbus_frame_verify f = Ok (-1) /\
  exists r f', mbus_frame_pack f buf dsize = Ok (r, f', buf) /\ r < 0.
Proof.
  intros ty buf dsize H Hs f. cbn [In] in H. assert (E : f = mkF 0 0 0 0 0 0 0 0 0 (repeat 0 252) 0 ty 0).
  { unfold f, mbus_frame_new, T_ACK, T_SHORT, T_CONTROL, T_LONG.
    destruct (Z.eqb_spec ty 1); [lia|]. destruct (Z.eqb_spec ty 2); [lia|]. destruct (Z.eqb_spec ty 3); [lia|]. destruct (Z.eqb_spec ty 4); [lia|]. reflexivity. }
  split; [exact E|]. rewrite E. clear E f. set (f := mkF 0 0 0 0 0 0 0 0 0 (repeat 0 252) 0 ty 0).
  assert (T : (ty =? 1) = false /\ (ty =? 2) = false /\ (ty =? 3) = false /\ (ty =? 4) = false) by lia. destruct T as (T1 & T2 & T3 & T4).
  split; [unfold mbus_frame_calc_checksum, T_ACK, T_SHORT, T_CONTROL, T_LONG; cbn [ftype f]; change (ftype f) with ty; rewrite T1, T2, T3, T4; reflexivity|].
  split; [unfold mbus_frame_verify, T_ACK, T_SHORT, T_CONTROL, T_LONG; change (ftype f) with ty; rewrite T1, T2, T3, T4; reflexivity|].
  destruct (C08_pack_bounds f buf dsize) as (r & f' & buf' & P & _ & C & N & _); [reflexivity|change (ftype f) with ty; lia|exact Hs|].
  assert (R : r < 0) by (apply N; left; exact H). exists r, f'. split; [|exact R]. destruct C as [[_ ->]|[C _]]; [exact P|lia].
Qed.
Print Assumptions C96_packed.
Print Assumptions C96_completed.
Print Assumptions C96_other_types.

Example C96_nonvacuous :
  valid (Long 0x53 0xFE 0x51 [1; 0x7A; 5]) /\
  exists g, mbus_frame_calc_checksum (snd (mbus_frame_calc_length (fill (mbus_frame_new 4) (Long 0x53 0xFE 0x51 [1; 0x7A; 5])))) = Ok (0, g) /\
    layout g = [0x68; 6; 6; 0x68; 0x53; 0xFE; 0x51; 1; 0x7A; 5; 0x22; 0x16] /\ mbus_frame_verify g = Ok 0.
Proof.
  split; [unfold valid, long_code, byte_range; repeat split; try (cbn; lia); repeat constructor; lia|]. eexists. split; [vm_compute; reflexivity|]. split; vm_compute; reflexivity.
Qed.
