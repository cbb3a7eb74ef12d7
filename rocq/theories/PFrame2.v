(** More proofs about the telegram layer: prefixes, corruption, packing. *)
From Verif Require Import CBase PBase MFrame SWire SFrame PFrame.

Lemma wire_bytes t : valid t -> bytes (wire t).
Proof.
  intros Hv. destruct t as [|c a|c a ci|c a ci p]; cbn [wire valid app] in *.
  - repeat constructor; unfold is_byte; lia.
  - destruct Hv as [Hc Ha]. apply short_code_byte in Hc. apply byte_range_is_byte in Ha.
    rewrite !bytes_cons. unfold is_byte in *. repeat split; try lia. constructor.
  - destruct Hv as (Hc & Ha & Hci). apply long_code_byte in Hc.
    apply byte_range_is_byte in Ha. apply byte_range_is_byte in Hci.
    rewrite !bytes_cons. unfold is_byte in *. repeat split; try lia. constructor.
  - destruct Hv as (Hc & Ha & Hci & Hp & Hl). apply long_code_byte in Hc.
    apply byte_range_is_byte in Ha. apply byte_range_is_byte in Hci. apply byte_range_bytes in Hp.
    rewrite !bytes_cons, bytes_app, !bytes_cons.
    assert (H : is_byte ((c + a + ci + total p) mod 256)) by apply (u8_byte (c + a + ci + total p)).
    unfold is_byte in *. repeat split; try lia; auto. constructor.
Qed.

Definition wire_len (t : telegram) : nat :=
  match t with Ack => 1 | Short _ _ => 5 | Control _ _ _ => 9 | Long _ _ _ p => 9 + length p end.
Lemma wire_length t : length (wire t) = wire_len t.
Proof.
  destruct t; cbn [wire wire_len length app]; try reflexivity.
  rewrite app_length. cbn [length]. lia.
Qed.

(** ** Prefixes. *)
Lemma parse_prefix f t k : frame_obj f -> valid t -> (0 < k < length (wire t))%nat ->
  exists r f', mbus_parse f (firstn k (wire t)) = Ok (r, f') /\
    0 < r <= Z.of_nat (length (wire t) - k) /\
    ((3 <= k)%nat \/ hd 0 (wire t) = 0x10 -> r = Z.of_nat (length (wire t) - k)).
Proof.
  intros Ho Hv Hk. rewrite wire_length in *.
  destruct t as [|c a|c a ci|c a ci p]; cbn [wire_len] in Hk.
  - lia.
  - destruct k as [|k]; [lia|]. cbn [wire firstn].
    rewrite parse_short_less by (rewrite firstn_length; cbn [length]; lia).
    rewrite firstn_length. cbn [length wire_len].
    eexists _, _. split; [reflexivity|]. lia.
  - cbn [wire wire_len]. destruct k as [|[|[|k]]]; [lia| | |].
    + cbn [firstn]. rewrite parse_long_tiny by (cbn; lia). eexists _, _. split; [reflexivity|].
      cbn [length hd]. lia.
    + cbn [firstn]. rewrite parse_long_tiny by (cbn; lia). eexists _, _. split; [reflexivity|].
      cbn [length hd]. lia.
    + cbn [firstn]. rewrite parse_long_hdr. cbv zeta. change (3 <? 3) with false. cbv iota.
      change (3 =? 3) with true. cbn [negb].
      rewrite firstn_length. cbn [length].
      match goal with |- context [?a <? ?b] => destruct (Z.ltb_spec a b); [|lia] end.
      eexists _, _. split; [reflexivity|]. lia.
  - cbn [valid] in Hv. cbn [wire wire_len app]. destruct k as [|[|[|k]]]; [lia| | |].
    + cbn [firstn]. rewrite parse_long_tiny by (cbn; lia). eexists _, _. split; [reflexivity|].
      cbn [length hd]. lia.
    + cbn [firstn]. rewrite parse_long_tiny by (cbn; lia). eexists _, _. split; [reflexivity|].
      cbn [length hd]. lia.
    + cbn [firstn]. rewrite parse_long_hdr. cbv zeta.
      destruct (Z.ltb_spec (Z.of_nat (length p) + 3) 3); [lia|].
      rewrite Z.eqb_refl. cbn [negb].
      rewrite firstn_length. cbn [length]. rewrite app_length. cbn [length].
      match goal with |- context [?a <? ?b] => destruct (Z.ltb_spec a b); [|lia] end.
      eexists _, _. split; [reflexivity|]. lia.
Qed.

(** ** Acceptance as an equivalence. *)
Lemma parse_zero_iff f bs : frame_obj f -> bytes bs ->
  ((exists f', mbus_parse f bs = Ok (0, f')) <-> (well_formed bs \/ exists tl, bs = 0xE5 :: tl)).
Proof.
  intros Ho Hb. split.
  - intros [f' H]. destruct (parse_sound _ _ _ Ho Hb H) as [(tl & -> & _)|[(c & a & Hv & Hw & _)|(c & a & ci & p & Hp & Hv & Hw & _)]].
    + right. eauto.
    + left. exists (Short c a). auto.
    + left. destruct p as [|p0 p]; eexists; (split; [exact Hv|exact Hw]).
  - intros [(t & Hv & ->)|(tl & ->)].
    + eexists. apply parse_wire; assumption.
    + eexists. apply parse_ack.
Qed.

Lemma parse_zero_denotes f bs f' : frame_obj f -> bytes bs -> mbus_parse f bs = Ok (0, f') ->
  exists t, valid t /\ denotes f' t /\ (bs = wire t \/ (t = Ack /\ hd 0 bs = 0xE5)).
Proof.
  intros Ho Hb H.
  destruct (parse_sound _ _ _ Ho Hb H) as [(tl & -> & ->)|[(c & a & Hv & Hw & ->)|(c & a & ci & p & Hp & Hv & Hw & ->)]].
  - exists Ack. cbn. auto.
  - exists (Short c a). split; [assumption|]. split; [|auto]. cbn. auto.
  - destruct p as [|p0 p].
    + exists (Control c a ci). split; [assumption|]. split; [|auto]. cbn. auto.
    + exists (Long c a ci (p0 :: p)). split; [assumption|]. split; [|auto].
      apply (denotes_parsed (Long c a ci (p0 :: p)) f Ho Hv).
Qed.

(** The return code on every buffer. *)
Definition b_at (bs : list Z) (i : nat) := nth i bs 0.
Lemma parse_codes f bs r f' : frame_obj f -> bytes bs -> mbus_parse f bs = Ok (r, f') ->
  let n := Z.of_nat (length bs) in
  let l := b_at bs 1 in
  (r = -1 <-> bs = []) /\
  (r = -4 <-> bs <> [] /\ b_at bs 0 <> 0xE5 /\ b_at bs 0 <> 0x10 /\ b_at bs 0 <> 0x68) /\
  (0 < r <-> (b_at bs 0 = 0x10 /\ n < 5 /\ r = 5 - n) \/
             (b_at bs 0 = 0x68 /\ n < 3 /\ r = 3 - n) \/
             (b_at bs 0 = 0x68 /\ 3 <= n < 6 + l /\ 3 <= l /\ b_at bs 2 = l /\ r = 6 + l - n)) /\
  (r = -2 <-> (b_at bs 0 = 0x10 /\ n > 5) \/
              (b_at bs 0 = 0x68 /\ 3 <= n /\ (l < 3 \/ b_at bs 2 <> l \/ n > 6 + l))) /\
  (r = -3 <-> ~ well_formed bs /\ ((b_at bs 0 = 0x10 /\ n = 5) \/
              (b_at bs 0 = 0x68 /\ 3 <= l /\ b_at bs 2 = l /\ n = 6 + l))) /\
  (r = 0 <-> well_formed bs \/ b_at bs 0 = 0xE5).
Proof.
  intros Ho Hb H n l. unfold b_at in *.
  pose proof (parse_zero_iff f bs Ho Hb) as Hz.
  assert (Hz' : r = 0 <-> well_formed bs \/ nth 0 bs 0 = 0xE5).
  { split.
    - intros ->. destruct (proj1 Hz (ex_intro _ f' H)) as [W|[tl ->]]; auto.
    - intros [W|E].
      + destruct (proj2 Hz (or_introl W)) as [f2 H2]. rewrite H in H2. inversion H2. reflexivity.
      + destruct bs as [|b tl]; [cbn in E; lia|]. cbn in E. subst b.
        rewrite parse_ack in H. inversion H. reflexivity. }
  clear Hz.
  destruct bs as [|b tl].
  { rewrite parse_nil in H. apply ok_inj2 in H. destruct H as [<- <-]. cbn in *.
    assert (well_formed [] -> False).
    { intros W. destruct Hz' as [_ Hz']. specialize (Hz' (or_introl W)). lia. }
    repeat split; intros; try lia; try tauto; try (intuition (try congruence; lia)). }
  assert (Hnn : b :: tl <> []) by discriminate.
  assert (Hn : 1 <= n) by (unfold n; cbn [length]; lia).
  cbn [nth] in *.
  destruct (Z.eq_dec b 0xE5) as [->|N1].
  { rewrite parse_ack in H. apply ok_inj2 in H. destruct H as [<- <-].
    intuition (try lia; try discriminate). }
  destruct (Z.eq_dec b 0x10) as [->|N2].
  { destruct (lt_eq_lt_dec (length tl) 4) as [[Hl|Hl]|Hl].
    - rewrite parse_short_less in H by assumption. apply ok_inj2 in H. destruct H as [Hr _].
      assert (Hn' : n < 5) by (unfold n; cbn [length]; lia).
      assert (Hr' : r = 5 - n) by (unfold n; cbn [length]; lia).
      clear Hr. intuition (try lia; try discriminate).
    - destruct tl as [|c [|a [|ck [|st [|? ?]]]]]; cbn in Hl; try lia.
      rewrite parse_short_exact in H.
      destruct (verify_short f c a ck st Ho) as (v & Hv & _). rewrite Hv in H. cbn [bind] in H.
      apply ok_inj2 in H. destruct H as [Hr _].
      assert (Hn' : n = 5) by (unfold n; cbn [length]; lia). clearbody n.
      destruct (v =? 0); subst r; intuition (try lia; try discriminate).
    - rewrite parse_short_more in H by assumption. apply ok_inj2 in H. destruct H as [<- _].
      assert (Hn' : n > 5) by (unfold n; cbn [length]; lia).
      intuition (try lia; try discriminate). }
  destruct (Z.eq_dec b 0x68) as [->|N3].
  2:{ rewrite parse_bad_start in H by assumption. apply ok_inj2 in H. destruct H as [<- _].
      intuition (try lia; try discriminate). }
  destruct (le_lt_dec 2 (length tl)) as [Hge|Hlt].
  2:{ rewrite parse_long_tiny in H by assumption. apply ok_inj2 in H. destruct H as [Hr _].
      assert (Hn' : n < 3) by (unfold n; cbn [length]; lia).
      assert (Hr' : r = 3 - n) by (unfold n; cbn [length]; lia). clear Hr.
      assert (HL : l = l) by reflexivity. clearbody l n.
      assert (0 <= l \/ l < 0) by lia.
      intuition (try lia; try discriminate). }
  destruct tl as [|l1 [|l2 tl]]; cbn [length] in Hge; try lia.
  rewrite parse_long_hdr in H. cbv zeta in H.
  assert (Hn3 : n = 3 + Z.of_nat (length tl)) by (unfold n; cbn [length]; lia).
  cbn [nth] in l. subst l. cbn [nth]. clearbody n.
  destruct (Z.ltb_spec l1 3).
  { apply ok_inj2 in H. destruct H as [<- _]. intuition (try lia; try discriminate). }
  destruct (Z.eqb_spec l1 l2) as [<-|Hne]; cbn [negb] in H.
  2:{ apply ok_inj2 in H. destruct H as [<- _]. intuition (try lia; try discriminate). }
  destruct (Z.ltb_spec (Z.of_nat (length tl)) (3 + l1)).
  { apply ok_inj2 in H. destruct H as [Hr _]. 
    assert (Hr' : r = 6 + l1 - n) by lia. clear Hr. intuition (try lia; try discriminate). }
  destruct (Z.gtb_spec (Z.of_nat (length tl)) (3 + l1)).
  { apply ok_inj2 in H. destruct H as [<- _]. intuition (try lia; try discriminate). }
  destruct (long_split tl l1) as (b3 & c & a & ci & p & ck & st & -> & Hl); [lia|lia|].
  assert (Hp : (length p <= 252)%nat).
  { rewrite !bytes_cons in Hb. destruct Hb as (_ & Hb1 & _). unfold is_byte in Hb1. lia. }
  rewrite parse_long_exact in H by assumption.
  destruct (verify_long f l1 b3 c a ci p ck st Ho Hp) as (v & Hv & _). rewrite Hv in H. cbn [bind] in H.
  apply ok_inj2 in H. destruct H as [Hr _].
  assert (Hn' : n = 6 + l1) by lia.
  destruct (v =? 0); subst r; intuition (try lia; try discriminate).
Qed.

(** ** Single-byte corruption. *)
Lemma replace_at_length i v l : (i < length l)%nat -> length (replace_at i v l) = length l.
Proof. intros H. unfold replace_at. rewrite app_length, firstn_length. cbn [length]. rewrite skipn_length. lia. Qed.
Lemma replace_at_same i v l : (i < length l)%nat -> nth i (replace_at i v l) 0 = v.
Proof.
  intros H. unfold replace_at. rewrite app_nth2; rewrite firstn_length; [|lia].
  replace (i - Nat.min i (length l))%nat with O by lia. reflexivity.
Qed.
Lemma replace_at_other i j v l : (i < length l)%nat -> j <> i ->
  nth j (replace_at i v l) 0 = nth j l 0.
Proof.
  intros H Hj. unfold replace_at. rewrite <- upd_splice by assumption.
  clear H. revert i j Hj. induction l as [|h t IH]; intros [|i] [|j] Hj; cbn; auto; try lia.
Qed.
Lemma replace_at_total i v l : (i < length l)%nat ->
  total (replace_at i v l) = total l + v - nth i l 0.
Proof.
  intros H. unfold replace_at. rewrite <- upd_splice by assumption.
  revert i H. induction l as [|h t IH]; intros [|i] H; cbn [length] in H; try lia; cbn [upd nth];
    rewrite !total_cons; [lia|]. rewrite IH by lia. lia.
Qed.

(** Two framed byte strings with the same head and tail bytes that differ in one place inside. *)
Lemma one_byte_sum (h1 h2 body1 body2 : list Z) s1 s2 e i v :
  length h1 = length h2 -> length body1 = length body2 ->
  h2 ++ body2 ++ [s2; e] = replace_at i v (h1 ++ body1 ++ [s1; e]) ->
  h1 = h2 -> (i < length (h1 ++ body1 ++ [s1; e]))%nat ->
  v <> nth i (h1 ++ body1 ++ [s1; e]) 0 -> is_byte v -> bytes (h1 ++ body1 ++ [s1; e]) ->
  s1 = total body1 mod 256 -> s2 = total body2 mod 256 -> False.
Proof.
  intros Lh Lb E <- Hi Hv Bv Bw -> ->.
  set (w := h1 ++ body1 ++ [total body1 mod 256; e]) in *.
  pose proof (replace_at_total i v w Hi) as Ht.
  assert (Bi : is_byte (nth i w 0)) by (apply bytes_nth; assumption).
  assert (Hpos : forall j, j <> i -> nth j (h1 ++ body2 ++ [total body2 mod 256; e]) 0 = nth j w 0).
  { intros j Hj. rewrite E. apply replace_at_other; assumption. }
  rewrite <- E in Ht. unfold w in Ht. rewrite !total_app, !total_cons in Ht. cbn [total fold_right] in Ht.
  destruct (Nat.eq_dec i (length h1 + length body1)) as [Ei|Ei].
  - assert (body1 = body2).
    { apply nth_ext with (d := 0) (d' := 0); [assumption|]. intros j Hj.
      specialize (Hpos (length h1 + j)%nat ltac:(lia)). unfold w in Hpos.
      rewrite !(app_nth2 h1) in Hpos by lia.
      replace (length h1 + j - length h1)%nat with j in Hpos by lia.
      rewrite !app_nth1 in Hpos by lia. auto. }
    subst body2. fold w in Hi. assert (nth i w 0 = v); [|congruence].
    rewrite <- (replace_at_same i v w Hi), <- E. reflexivity.
  - specialize (Hpos (length h1 + length body1)%nat ltac:(lia)). unfold w in Hpos.
    rewrite !(app_nth2 h1) in Hpos by lia.
    replace (length h1 + length body1 - length h1)%nat with (length body1) in Hpos by lia.
    rewrite (app_nth2 body1), Nat.sub_diag in Hpos by lia.
    rewrite Lb, (app_nth2 body2), Nat.sub_diag in Hpos by lia. cbn [nth] in Hpos.
    unfold is_byte in *. fold w in Ht. lia.
Qed.

Lemma corrupt_wf t t' i v : valid t -> valid t' -> t <> Ack -> t' <> Ack ->
  (i < length (wire t))%nat -> is_byte v -> v <> nth i (wire t) 0 ->
  wire t' = replace_at i v (wire t) -> False.
Proof.
  intros Hv Hv' Na Na' Hi Bv Ne E.
  assert (EL : length (wire t') = length (wire t)) by (rewrite E; apply replace_at_length; assumption).
  rewrite !wire_length in EL.
  assert (Bw := wire_bytes t Hv).
  destruct t as [|c a|c a ci|c a ci p]; [congruence| | |];
  destruct t' as [|c' a'|c' a' ci'|c' a' ci' p']; cbn [wire_len] in EL; try congruence; try lia.
  - apply (one_byte_sum [0x10] [0x10] [c; a] [c'; a'] ((c + a) mod 256) ((c' + a') mod 256) 0x16 i v);
      try reflexivity; try assumption; unfold total; cbn [fold_right]; f_equal; lia.
  - apply (one_byte_sum [0x68;3;3;0x68] [0x68;3;3;0x68] [c; a; ci] [c'; a'; ci']
             ((c + a + ci) mod 256) ((c' + a' + ci') mod 256) 0x16 i v);
      try reflexivity; try assumption; unfold total; cbn [fold_right]; f_equal; lia.
  - cbn [valid] in Hv'. lia.
  - cbn [valid] in Hv. lia.
  - apply (one_byte_sum [0x68; Z.of_nat (length p) + 3; Z.of_nat (length p) + 3; 0x68]
              [0x68; Z.of_nat (length p') + 3; Z.of_nat (length p') + 3; 0x68]
              (c :: a :: ci :: p) (c' :: a' :: ci' :: p')
             ((c + a + ci + total p) mod 256) ((c' + a' + ci' + total p') mod 256) 0x16 i v);
      try reflexivity; try assumption.
    + cbn [length]. lia.
    + replace (length p') with (length p) by lia. reflexivity.
    + rewrite !total_cons. f_equal. lia.
    + rewrite !total_cons. f_equal. lia.
Qed.

Lemma corruption_detected f t i v : frame_obj f -> valid t -> t <> Ack ->
  (i < length (wire t))%nat -> is_byte v -> v <> nth i (wire t) 0 -> ~ (i = O /\ v = 0xE5) ->
  exists r f', mbus_parse f (replace_at i v (wire t)) = Ok (r, f') /\ r <> 0.
Proof.
  intros Ho Hv Na Hi Bv Ne Nack.
  assert (Bw := wire_bytes t Hv).
  assert (Hb : bytes (replace_at i v (wire t))).
  { unfold replace_at. rewrite bytes_app, bytes_cons. auto using bytes_firstn, bytes_skipn. }
  destruct (parse_total f _ Ho Hb) as (r & f' & H & _).
  exists r, f'. split; [assumption|]. intros ->.
  destruct (proj1 (parse_zero_iff f _ Ho Hb) (ex_intro _ f' H)) as [(t' & Hv' & E)|[tl E]].
  - assert (Na' : t' <> Ack).
    { intros ->. assert (EL : length (replace_at i v (wire t)) = 1%nat) by (rewrite E; reflexivity).
      rewrite replace_at_length, wire_length in EL by assumption.
      destruct t; cbn [wire_len] in EL; try congruence; lia. }
    apply (corrupt_wf t t' i v); auto.
  - assert (E0 : nth 0 (replace_at i v (wire t)) 0 = 0xE5) by (rewrite E; reflexivity).
    destruct i as [|i].
    + rewrite replace_at_same in E0 by assumption. auto.
    + rewrite replace_at_other in E0 by (auto; lia).
      destruct t; cbn in E0; try congruence; lia.
Qed.

(** ** Packing. *)
(** The telegram a frame object is about to send. *)
Definition pack_bytes (f : frame) : option (list Z) :=
  if ftype f =? T_ACK then Some [start1 f]
  else if ftype f =? T_SHORT then
    Some [start1 f; control f; address f; (control f + address f) mod 256; stop f]
  else if ftype f =? T_CONTROL then
    Some [start1 f; 3; 3; start2 f; control f; address f; ctrl_info f;
          (control f + address f + ctrl_info f) mod 256; stop f]
  else if ftype f =? T_LONG then
    let p := firstn (Z.to_nat (data_size f)) (fdata f) in
    let n := (data_size f + 3) mod 256 in
    Some ([start1 f; n; n; start2 f; control f; address f; ctrl_info f] ++ p ++
          [(control f + address f + ctrl_info f + total p) mod 256; stop f])
  else None.

Definition packed_frame (f : frame) : frame :=
  let f1 := set_lengths f (calc_length f) in
  match calc_checksum f1 with Ok c => set_checksum f1 c | UB => f1 end.

Lemma pack_spec f buf dsize : frame_obj f -> (ftype f = T_LONG -> 0 <= data_size f <= 252) ->
  0 <= dsize <= Z.of_nat (length buf) ->
  match pack_bytes f with
  | None => exists r f', mbus_frame_pack f buf dsize = Ok (r, f', buf) /\ r = -3
  | Some w =>
      if Z.of_nat (length w) <=? dsize
      then mbus_frame_pack f buf dsize
           = Ok (Z.of_nat (length w), packed_frame f, w ++ skipn (length w) buf)
      else mbus_frame_pack f buf dsize = Ok (-4, packed_frame f, buf)
  end.
Proof.
  intros Ho Hd Hs. unfold mbus_frame_pack, pack_bytes, mbus_frame_calc_length, packed_frame.
  cbv zeta. change (0 =? -1) with false. cbv iota.
  unfold mbus_frame_calc_checksum. cbn [ftype set_lengths].
  destruct (Z.eqb_spec (ftype f) T_ACK) as [E|E1].
  { cbn [orb]. unfold calc_checksum. cbn [ftype set_lengths]. rewrite E. cbn [Z.eqb T_ACK T_SHORT T_CONTROL T_LONG Pos.eqb bind].
    change (0 =? -1) with false. cbv iota. cbn [ftype set_checksum set_lengths]. rewrite E.
    change (T_ACK =? T_ACK) with true. cbv iota.
    cbn [length]. destruct (Z.leb_spec (Z.of_nat 1) dsize); destruct (Z.ltb_spec dsize 1); try lia; try reflexivity.
    cbn [start1 set_checksum set_lengths].
    rewrite put_list_ok by (cbn [length]; lia). reflexivity. }
  destruct (Z.eqb_spec (ftype f) T_SHORT) as [E|E2].
  { cbn [orb]. rewrite calc_checksum_short by exact E. cbn [bind].
    change (0 =? -1) with false. cbv iota. cbn [ftype set_checksum set_lengths]. rewrite E.
    change (T_SHORT =? T_ACK) with false. change (T_SHORT =? T_SHORT) with true. cbv iota.
    cbn [length]. destruct (Z.leb_spec (Z.of_nat 5) dsize); destruct (Z.ltb_spec dsize 5); try lia; try reflexivity.
    cbn [start1 control address checksum stop set_checksum set_lengths].
    rewrite put_list_ok by (cbn [length]; lia). reflexivity. }
  destruct (Z.eqb_spec (ftype f) T_CONTROL) as [E|E3].
  { cbn [orb]. rewrite calc_checksum_control by exact E. cbn [bind].
    change (0 =? -1) with false. cbv iota. cbn [ftype set_checksum set_lengths]. rewrite E.
    change (T_CONTROL =? T_ACK) with false. change (T_CONTROL =? T_SHORT) with false.
    change (T_CONTROL =? T_CONTROL) with true. cbv iota.
    cbn [length]. destruct (Z.leb_spec (Z.of_nat 9) dsize); destruct (Z.ltb_spec dsize 9); try lia; try reflexivity.
    cbn [start1 start2 length1 length2 control address ctrl_info checksum stop set_checksum set_lengths].
    rewrite put_list_ok by (cbn [length]; lia).
    unfold calc_length. rewrite E. reflexivity. }
  destruct (Z.eqb_spec (ftype f) T_LONG) as [E|E4].
  { specialize (Hd E). cbn [orb]. rewrite calc_checksum_long by (exact E || exact Ho || exact Hd). cbn [bind].
    change (0 =? -1) with false. cbv iota. cbn [ftype set_checksum set_lengths]. rewrite E.
    change (T_LONG =? T_ACK) with false. change (T_LONG =? T_SHORT) with false.
    change (T_LONG =? T_CONTROL) with false. change (T_LONG =? T_LONG) with true. cbv iota.
    cbn [data_size fdata control address ctrl_info set_lengths set_checksum].
    set (p := firstn (Z.to_nat (data_size f)) (fdata f)).
    assert (Lp : length p = Z.to_nat (data_size f)).
    { unfold p. rewrite firstn_length. unfold frame_obj, DATA_LEN in Ho. lia. }
    set (ck := (control f + address f + ctrl_info f + total p) mod 256).
    rewrite !app_length, Lp. cbn [length].
    destruct (Z.leb_spec (Z.of_nat (7 + (Z.to_nat (data_size f) + 2))) dsize);
    destruct (Z.ltb_spec dsize (data_size f + 9)); try lia; try reflexivity.
    cbn [start1 start2 length1 length2 control address ctrl_info checksum stop set_checksum set_lengths].
    rewrite put_list_ok by (cbn [length]; lia). cbn [bind length firstn app Nat.add].
    set (hd7 := [start1 f; calc_length f; calc_length f; start2 f; control f; address f; ctrl_info f]).
    change (start1 f :: calc_length f :: calc_length f :: start2 f :: control f :: address f :: ctrl_info f :: skipn 7 buf)
      with (hd7 ++ skipn 7 buf).
    rewrite copy_loop_ok.
    2:{ rewrite app_length, skipn_length. cbn [length hd7]. lia. }
    2:{ unfold frame_obj, DATA_LEN in Ho. lia. }
    cbn [bind]. rewrite (firstn_app_exact hd7) by reflexivity.
    change (skipn 0 (fdata f)) with (fdata f). fold p.
    assert (E7 : skipn (7 + Z.to_nat (data_size f)) (hd7 ++ skipn 7 buf)
                 = skipn (7 + Z.to_nat (data_size f)) buf).
    { rewrite skipn_app. rewrite (skipn_all2 hd7) by (cbn [length hd7]; lia). cbn [app].
      cbn [length hd7]. replace (7 + Z.to_nat (data_size f) - 7)%nat with (Z.to_nat (data_size f)) by lia.
      rewrite skipn_add. f_equal. lia. }
    rewrite E7.
    set (tlb := skipn (7 + Z.to_nat (data_size f)) buf).
    assert (Ltl : (2 <= length tlb)%nat) by (unfold tlb; rewrite skipn_length; lia).
    rewrite put_list_ok.
    2:{ rewrite !app_length, Lp. cbn [length hd7]. lia. }
    cbn [bind]. rewrite !(app_assoc hd7 p tlb).
    rewrite (firstn_app_exact (hd7 ++ p)) by (rewrite app_length, Lp; reflexivity).
    assert (E8 : skipn (7 + Z.to_nat (data_size f) + 2) ((hd7 ++ p) ++ tlb)
                 = skipn (7 + (Z.to_nat (data_size f) + 2)) buf).
    { rewrite skipn_app. rewrite (skipn_all2 (hd7 ++ p)) by (rewrite app_length, Lp; cbn [length hd7]; lia).
      cbn [app]. unfold tlb. rewrite skipn_add. f_equal. rewrite app_length, Lp. cbn [length hd7]. lia. }
    change (length [ck; stop f]) with 2%nat.
    cbn [Nat.add] in E8 |- *. rewrite E8.
    assert (Ec : calc_length f = (data_size f + 3) mod 256).
    { unfold calc_length. rewrite E. reflexivity. }
    f_equal. f_equal; [f_equal; lia|].
    unfold hd7. rewrite Ec. rewrite <- !app_assoc. reflexivity. }
  exists (-3), (set_lengths f (calc_length f)). cbn [orb bind]. split; reflexivity.
Qed.

Lemma layout_verify f : frame_obj f -> frame_bytes f -> In (ftype f) [2; 3; 4] ->
  (ftype f = 4 -> 0 <= data_size f <= 252) ->
  exists r, mbus_frame_verify f = Ok r /\ (r = 0 \/ r = -1) /\ (r = 0 <-> well_formed (layout f)).
Proof.
  intros Ho Hb Ht Hd.
  destruct (verify_spec f Ho Hd) as (r & Hr & Hv & Hi).
  { unfold T_ACK. cbn in Ht. lia. }
  exists r. split; [exact Hr|]. split; [exact Hv|]. rewrite Hi. clear r Hr Hv Hi.
  destruct Hb as [Hb Hbd]. rewrite !bytes_cons in Hb.
  destruct Hb as (B1 & B2 & B3 & B4 & B5 & B6 & B7 & B8 & B9 & _).
  unfold consistent, layout, T_SHORT, T_CONTROL, T_LONG.
  cbn in Ht. destruct Ht as [Ht|[Ht|[Ht|[]]]]; rewrite <- Ht; cbn [Z.eqb Pos.eqb].
  - split.
    + intros [H|[H|H]]; [|exfalso; lia|exfalso; lia].
      destruct H as (_ & -> & Hc & -> & ->). exists (Short (control f) (address f)).
      split; [|reflexivity]. cbn [valid]. rewrite byte_range_is_byte. auto.
    + intros (t & Hv & E). left. destruct t as [|c a|c a ci|c a ci p]; cbn [wire app] in E; try discriminate.
      injection E as -> -> -> -> ->. cbn [valid] in Hv. tauto.
  - split.
    + intros [H|[H|H]]; [exfalso; lia| |exfalso; lia].
      destruct H as (_ & -> & -> & Hc & -> & -> & -> & ->). exists (Control (control f) (address f) (ctrl_info f)).
      split; [|reflexivity]. cbn [valid]. rewrite !byte_range_is_byte. auto.
    + intros (t & Hv & E). right; left. destruct t as [|c a|c a ci|c a ci p]; cbn [wire app] in E; try discriminate.
      * injection E as -> -> -> -> -> -> -> -> ->. cbn [valid] in Hv. tauto.
      * exfalso. apply (f_equal (@length Z)) in E. cbn [length] in E. rewrite app_length in E. cbn [length] in E.
        cbn [valid] in Hv. lia.
  - specialize (Hd (eq_sym Ht)). set (p := firstn (Z.to_nat (data_size f)) (fdata f)).
    assert (Lp : Z.of_nat (length p) = data_size f).
    { unfold p. rewrite firstn_length. unfold frame_obj, DATA_LEN in Ho. lia. }
    assert (Bp : bytes p) by (apply bytes_firstn; assumption).
    assert (Em : (data_size f + 3) mod 256 = data_size f + 3) by lia.
    rewrite Em. cbn [app]. split.
    + intros [H|[H|H]]; [exfalso; lia|exfalso; lia|].
      destruct H as (_ & -> & -> & Hc & -> & -> & -> & ->).
      destruct p as [|p0 p'] eqn:Ep.
      * exists (Control (control f) (address f) (ctrl_info f)).
        cbn [length] in Lp. rewrite <- Lp. cbn [total fold_right]. rewrite Z.add_0_r.
        split; [|reflexivity]. cbn [valid]. rewrite !byte_range_is_byte. auto.
      * exists (Long (control f) (address f) (ctrl_info f) (p0 :: p')).
        split.
        -- cbn [valid]. rewrite !byte_range_is_byte, byte_range_bytes. unfold is_byte in *. repeat split; auto; cbn [length] in *; lia.
        -- cbn [wire]. rewrite Lp. reflexivity.
    + intros (t & Hv & E). right; right. destruct t as [|c a|c a ci|c a ci q]; cbn [wire app] in E; try discriminate.
      * injection E as -> -> -> -> -> -> -> E'.
        assert (p = []).
        { apply (f_equal (@length Z)) in E'. rewrite app_length in E'. cbn [length] in E'.
          destruct p; [reflexivity|cbn [length] in E'; lia]. }
        rewrite H in *. cbn [app] in E'. injection E' as -> ->. cbn [length] in Lp.
        cbn [total fold_right]. rewrite Z.add_0_r. cbn [valid] in Hv. intuition lia.
      * injection E as -> E1 E2 -> -> -> -> E'.
        assert (Lq : length p = length q).
        { apply (f_equal (@length Z)) in E'. rewrite !app_length in E'. cbn [length] in E'. lia. }
        destruct (app_inj_len _ _ _ _ E' Lq) as [-> E''].
        injection E'' as -> ->. cbn [valid] in Hv. rewrite E1, E2, <- Lp. tauto.
Qed.

(** ** Pack/parse round trips. *)
Lemma pack_bytes_denotes f t : frame_obj f -> delimiters f -> denotes f t -> valid t ->
  pack_bytes f = Some (wire t).
Proof.
  intros Ho (D1 & D2 & D3 & D4) Hden Hv. unfold pack_bytes, T_ACK, T_SHORT, T_CONTROL, T_LONG.
  destruct t as [|c a|c a ci|c a ci p]; cbn [denotes] in Hden.
  - rewrite Hden. cbn. rewrite (D1 Hden). reflexivity.
  - destruct Hden as (E & <- & <-). rewrite E. cbn. destruct (D2 E) as [-> ->]. reflexivity.
  - destruct Hden as (E & <- & <- & <- & _). rewrite E. cbn. destruct (D3 E) as (-> & -> & ->). reflexivity.
  - destruct Hden as (E & <- & <- & <- & Hs & Hp). rewrite E. cbn [Z.eqb Pos.eqb]. cbv zeta.
    destruct (D4 E) as (-> & -> & ->). rewrite Hs, Nat2Z.id, Hp. cbn [valid] in Hv.
    replace ((Z.of_nat (length p) + 3) mod 256) with (Z.of_nat (length p) + 3) by lia. reflexivity.
Qed.

Lemma denotes_size f t : denotes f t -> valid t -> ftype f = T_LONG -> 0 <= data_size f <= 252.
Proof.
  unfold T_LONG. destruct t; cbn [denotes valid]; intros; lia.
Qed.

Lemma pack_wire f t buf dsize : frame_obj f -> delimiters f -> denotes f t -> valid t ->
  0 <= dsize <= Z.of_nat (length buf) -> Z.of_nat (length (wire t)) <= dsize ->
  mbus_frame_pack f buf dsize
  = Ok (Z.of_nat (length (wire t)), packed_frame f, wire t ++ skipn (length (wire t)) buf).
Proof.
  intros Ho Hdl Hden Hv Hs Hw.
  pose proof (pack_spec f buf dsize Ho (denotes_size f t Hden Hv) Hs) as H.
  rewrite (pack_bytes_denotes f t Ho Hdl Hden Hv) in H.
  destruct (Z.leb_spec (Z.of_nat (length (wire t))) dsize); [exact H|lia].
Qed.

Lemma pack_parse f t buf dsize g : frame_obj f -> delimiters f -> denotes f t -> valid t ->
  0 <= dsize <= Z.of_nat (length buf) -> Z.of_nat (length (wire t)) <= dsize -> frame_obj g ->
  exists n f' buf' g',
    mbus_frame_pack f buf dsize = Ok (n, f', buf') /\
    firstn (Z.to_nat n) buf' = wire t /\
    mbus_parse g (firstn (Z.to_nat n) buf') = Ok (0, g') /\ denotes g' t /\ fnext g' = 0.
Proof.
  intros Ho Hdl Hden Hv Hs Hw Hg.
  eexists _, _, _, (parsed t g). split; [apply pack_wire; eassumption|].
  rewrite Nat2Z.id, firstn_app_exact by reflexivity. split; [reflexivity|].
  split; [apply parse_wire; assumption|]. split; [apply denotes_parsed; assumption|].
  destruct t; reflexivity.
Qed.

Lemma parsed_repack t f : frame_obj f -> valid t ->
  forall buf, (length (wire t) <= length buf)%nat ->
  exists f2,
  mbus_frame_pack (parsed t f) buf (Z.of_nat (length (wire t)))
  = Ok (Z.of_nat (length (wire t)), f2, wire t ++ skipn (length (wire t)) buf).
Proof.
  intros Ho Hv buf Hl.
  assert (Ho' : frame_obj (parsed t f)).
  { destruct t; cbn [parsed]; auto; apply frame_obj_long; auto; cbn [valid length] in *; lia. }
  eexists. apply (pack_wire (parsed t f) t); try assumption; try lia.
  - destruct t as [|c a|c a ci|c a ci p]; unfold delimiters; cbn; try (intuition discriminate).
    destruct (Z.of_nat (length p) =? 0); intuition discriminate.
  - apply denotes_parsed; assumption.
Qed.

Lemma parse_pack f bs f' : frame_obj f -> bytes bs -> mbus_parse f bs = Ok (0, f') ->
  mbus_frame_type f' <> 1 ->
  forall buf, (length bs <= length buf)%nat ->
  exists f2, mbus_frame_pack f' buf (Z.of_nat (length bs))
  = Ok (Z.of_nat (length bs), f2, bs ++ skipn (length bs) buf).
Proof.
  intros Ho Hb H Ht buf Hl.
  destruct (parse_sound _ _ _ Ho Hb H) as [(tl & -> & ->)|[(c & a & Hv & -> & ->)|(c & a & ci & p & Hp & Hv & -> & ->)]].
  - cbn in Ht. unfold T_ACK in Ht. lia.
  - apply (parsed_repack (Short c a) f); auto; discriminate.
  - destruct p as [|p0 p].
    + pose proof (parsed_repack (Control c a ci) f Ho Hv buf Hl) as HH.
      cbn [parsed] in HH. cbn [length total fold_right]. rewrite Z.add_0_r. exact HH.
    + apply (parsed_repack (Long c a ci (p0 :: p)) f Ho Hv); auto; discriminate.
Qed.

Lemma pack_bounds f buf dsize : frame_obj f -> (ftype f = 4 -> 0 <= data_size f <= 252) ->
  0 <= dsize <= Z.of_nat (length buf) ->
  exists r f' buf', mbus_frame_pack f buf dsize = Ok (r, f', buf') /\ length buf' = length buf /\
    ((r < 0 /\ buf' = buf) \/
     (0 < r <= dsize /\ skipn (Z.to_nat r) buf' = skipn (Z.to_nat r) buf)) /\
    (r < 0 <-> ~ In (ftype f) [1; 2; 3; 4] \/ dsize < Z.of_nat (length (layout f))) /\
    (0 < r -> r = Z.of_nat (length (layout f))).
Proof.
  intros Ho Hd Hs. pose proof (pack_spec f buf dsize Ho Hd Hs) as H.
  unfold pack_bytes, T_ACK, T_SHORT, T_CONTROL, T_LONG in *.
  assert (G : forall w, pack_bytes f = Some w -> length w = length (layout f) -> In (ftype f) [1;2;3;4] ->
    (if Z.of_nat (length w) <=? dsize
      then mbus_frame_pack f buf dsize
           = Ok (Z.of_nat (length w), packed_frame f, w ++ skipn (length w) buf)
      else mbus_frame_pack f buf dsize = Ok (-4, packed_frame f, buf)) ->
    (0 < length w)%nat ->
    exists r f' buf', mbus_frame_pack f buf dsize = Ok (r, f', buf') /\ length buf' = length buf /\
    ((r < 0 /\ buf' = buf) \/
     (0 < r <= dsize /\ skipn (Z.to_nat r) buf' = skipn (Z.to_nat r) buf)) /\
    (r < 0 <-> ~ In (ftype f) [1; 2; 3; 4] \/ dsize < Z.of_nat (length (layout f))) /\
    (0 < r -> r = Z.of_nat (length (layout f)))).
  { intros w _ Hl Hin Hc Hpos. rewrite <- Hl.
    destruct (Z.leb_spec (Z.of_nat (length w)) dsize); rewrite Hc; eexists _, _, _; (split; [reflexivity|]).
    - rewrite app_length, skipn_length. split; [lia|]. split; [right|].
      + split; [lia|]. rewrite Nat2Z.id. rewrite skipn_app_exact by reflexivity. reflexivity.
      + split; [|lia]. split; [lia|]. intros [X|X]; [contradiction|lia].
    - split; [reflexivity|]. split; [left; split; [lia|reflexivity]|]. split; [|lia].
      split; [auto|lia]. }
  assert (U : pack_bytes f = pack_bytes f) by reflexivity. unfold pack_bytes at 2 in U.
  unfold T_ACK, T_SHORT, T_CONTROL, T_LONG in U.
  unfold layout in *.
  destruct (Z.eqb_spec (ftype f) 1) as [E|E1].
  { apply (G _ U); [reflexivity|cbn; auto|exact H|cbn; lia]. }
  destruct (Z.eqb_spec (ftype f) 2) as [E|E2].
  { apply (G _ U); [reflexivity|cbn; auto|exact H|cbn; lia]. }
  destruct (Z.eqb_spec (ftype f) 3) as [E|E3].
  { apply (G _ U); [reflexivity|cbn; auto|exact H|cbn; lia]. }
  destruct (Z.eqb_spec (ftype f) 4) as [E|E4].
  { apply (G _ U); [|cbn; auto|exact H|cbn [app length]; lia].
    rewrite !app_length. reflexivity. }
  destruct H as (r & f' & H & ->). rewrite H. exists (-3), f', buf. split; [reflexivity|].
  split; [reflexivity|]. split; [left; split; [lia|reflexivity]|]. split; [|lia].
  split; [|lia]. intros _. left. cbn. lia.
Qed.

Lemma pack_stale f l1 l2 ck buf dsize : frame_obj f -> (ftype f = 4 -> 0 <= data_size f <= 252) ->
  0 <= dsize <= Z.of_nat (length buf) ->
  forall r f' buf', mbus_frame_pack f buf dsize = Ok (r, f', buf') ->
  exists f2, mbus_frame_pack (with_stale f l1 l2 ck) buf dsize = Ok (r, f2, buf') /\ (0 < r -> f2 = f').
Proof.
  intros Ho Hd Hs r f' buf' H.
  pose proof (pack_spec f buf dsize Ho Hd Hs) as H1.
  pose proof (pack_spec (with_stale f l1 l2 ck) buf dsize Ho Hd Hs) as H2.
  assert (E : pack_bytes (with_stale f l1 l2 ck) = pack_bytes f) by reflexivity.
  rewrite E in H2. destruct (pack_bytes f) as [w|] eqn:Ew.
  - assert (Ep : packed_frame (with_stale f l1 l2 ck) = packed_frame f).
    { unfold packed_frame. change (calc_length (with_stale f l1 l2 ck)) with (calc_length f).
      change (calc_checksum (set_lengths (with_stale f l1 l2 ck) (calc_length f)))
        with (calc_checksum (set_lengths f (calc_length f))).
      destruct (calc_checksum _) eqn:Ec; [reflexivity|].
      exfalso. unfold pack_bytes in Ew.
      unfold calc_checksum in Ec. cbn [ftype set_lengths] in Ec.
      destruct (ftype f =? T_SHORT) eqn:E2; [discriminate|].
      destruct (ftype f =? T_CONTROL) eqn:E3; [discriminate|].
      destruct (Z.eqb_spec (ftype f) T_LONG) as [E4|E4]; [|discriminate].
      specialize (Hd E4). cbn [fdata data_size set_lengths] in Ec.
      rewrite sum_loop_ok in Ec; [discriminate| |apply u8_byte].
      unfold frame_obj, DATA_LEN in Ho. lia. }
    destruct (Z.of_nat (length w) <=? dsize); rewrite H in H1; rewrite H2, Ep;
      injection H1 as -> -> ->; eexists; split; reflexivity.
  - destruct H1 as (r1 & f1 & H1 & ->). destruct H2 as (r2 & f2 & H2 & ->).
    rewrite H in H1. injection H1 as -> -> ->. exists f2. split; [exact H2|lia].
Qed.

Lemma pack_consistent f buf dsize r f' buf' : frame_obj f -> (ftype f = 4 -> 0 <= data_size f <= 252) ->
  0 <= dsize <= Z.of_nat (length buf) ->
  mbus_frame_pack f buf dsize = Ok (r, f', buf') -> 0 < r ->
  firstn (Z.to_nat r) buf' = layout f' /\
  (ftype f = 2 -> checksum f' = (control f + address f) mod 256) /\
  (ftype f = 3 -> checksum f' = (control f + address f + ctrl_info f) mod 256
                  /\ length1 f' = 3 /\ length2 f' = 3) /\
  (ftype f = 4 -> checksum f' = (control f + address f + ctrl_info f
                    + total (firstn (Z.to_nat (data_size f)) (fdata f))) mod 256
                  /\ length1 f' = data_size f + 3
                  /\ length2 f' = length1 f').
Proof.
  intros Ho Hd Hs H Hr.
  pose proof (pack_spec f buf dsize Ho Hd Hs) as H1.
  destruct (pack_bytes f) as [w|] eqn:Ew.
  2:{ destruct H1 as (r1 & f1 & H1 & ->). rewrite H in H1. injection H1 as -> -> ->. lia. }
  destruct (Z.of_nat (length w) <=? dsize); rewrite H in H1; injection H1 as -> -> ->; [|lia].
  rewrite Nat2Z.id, firstn_app_exact by reflexivity. clear H Hr.
  unfold pack_bytes, packed_frame in *.
  destruct (Z.eqb_spec (ftype f) T_ACK) as [E|E1].
  { unfold calc_checksum, layout. cbn [ftype set_lengths]. rewrite E. cbn.
    rewrite E. cbn. injection Ew as <-. split; [reflexivity|]. unfold T_ACK. repeat split; intros; lia. }
  destruct (Z.eqb_spec (ftype f) T_SHORT) as [E|E2].
  { rewrite calc_checksum_short by exact E. unfold layout, T_SHORT in *.
    cbn [ftype set_checksum set_lengths checksum control address start1 stop]. rewrite E. cbn [Z.eqb Pos.eqb].
    injection Ew as <-. split; [reflexivity|]. repeat split; intros; lia. }
  destruct (Z.eqb_spec (ftype f) T_CONTROL) as [E|E3].
  { rewrite calc_checksum_control by exact E. unfold calc_length, layout, T_CONTROL in *.
    cbn [ftype set_checksum set_lengths checksum control address ctrl_info start1 start2 stop length1 length2].
    rewrite E. cbn [Z.eqb Pos.eqb].
    injection Ew as <-. split; [reflexivity|]. repeat split; intros; lia. }
  destruct (Z.eqb_spec (ftype f) T_LONG) as [E|E4]; [|discriminate].
  specialize (Hd E). rewrite calc_checksum_long by (exact E || exact Ho || exact Hd).
  unfold calc_length, layout, T_CONTROL, T_LONG in *.
  cbn [ftype set_checksum set_lengths checksum control address ctrl_info start1 start2 stop length1 length2 data_size fdata].
  rewrite E. cbn [Z.eqb Pos.eqb]. injection Ew as <-. split; [reflexivity|].
  unfold u8. repeat split; intros; lia.
Qed.

Lemma pack_twice f buf dsize r f' buf' : frame_obj f -> (ftype f = 4 -> 0 <= data_size f <= 252) ->
  0 <= dsize <= Z.of_nat (length buf) ->
  mbus_frame_pack f buf dsize = Ok (r, f', buf') -> 0 < r ->
  mbus_frame_pack f' buf dsize = Ok (r, f', buf').
Proof.
  intros Ho Hd Hs H Hr.
  assert (E : exists l1 l2 ck, f' = with_stale f l1 l2 ck).
  { pose proof (pack_spec f buf dsize Ho Hd Hs) as H1.
    destruct (pack_bytes f) as [w|] eqn:Ew.
    2:{ destruct H1 as (r1 & f1 & H1 & ->). rewrite H in H1. injection H1 as -> -> ->. lia. }
    destruct (Z.of_nat (length w) <=? dsize); rewrite H in H1; injection H1 as -> -> ->; [|lia].
    unfold packed_frame. destruct (calc_checksum _); eexists _, _, _; reflexivity. }
  destruct E as (l1 & l2 & ck & E). 
  destruct (pack_stale f l1 l2 ck buf dsize Ho Hd Hs r f' buf' H) as (f2 & H2 & E2).
  rewrite <- E in H2. rewrite H2, (E2 Hr). reflexivity.
Qed.

Lemma direction_spec f t : denotes f t -> valid t ->
  (mbus_frame_direction f = 0x40 <->
     (exists c a, t = Short c a) \/ (In (control f) [0x53; 0x73] /\ t <> Ack)) /\
  (mbus_frame_direction f = 0 <-> t = Ack \/ (In (control f) [0x08; 0x18; 0x28; 0x38] /\ forall c a, t <> Short c a)).
Proof.
  intros Hd Hv. unfold mbus_frame_direction, T_ACK, DIR_S2M.
  destruct t as [|c a|c a ci|c a ci p]; cbn [denotes valid] in *.
  - rewrite Hd. cbn [Z.eqb Pos.eqb]. split; split; intros H; try lia; try tauto.
    destruct H as [(c & a & H)|(_ & H)]; congruence.
  - destruct Hd as (-> & -> & _). cbn [Z.eqb Pos.eqb].
    destruct Hv as [Hc _]. unfold short_code in Hc. cbn [In] in Hc.
    assert (E : Z.land c 64 = 64) by (destruct Hc as [<-|[<-|[<-|[<-|[<-|[]]]]]]; reflexivity).
    rewrite E. split; split; intros H; try lia; [left; eauto|].
    destruct H as [H|[_ H]]; [discriminate|]. exfalso. apply (H c a). reflexivity.
  - destruct Hd as (-> & -> & _). cbn [Z.eqb Pos.eqb].
    destruct Hv as [Hc _]. unfold long_code in Hc. cbn [In] in *.
    destruct Hc as [<-|[<-|[<-|[<-|[<-|[<-|[]]]]]]];
    (split; split; intros H;
      [first [discriminate H | right; split; [lia|discriminate]] 
      | first [reflexivity | exfalso; destruct H as [(? & ? & H)|(H & _)]; [discriminate H|lia]]
      | first [discriminate H | right; split; [lia|intros; discriminate]]
      | first [reflexivity | exfalso; destruct H as [H|(H & _)]; [discriminate H|lia]]]).
  - destruct Hd as (-> & -> & _). cbn [Z.eqb Pos.eqb].
    destruct Hv as [Hc _]. unfold long_code in Hc. cbn [In] in *.
    destruct Hc as [<-|[<-|[<-|[<-|[<-|[<-|[]]]]]]];
    (split; split; intros H;
      [first [discriminate H | right; split; [lia|discriminate]] 
      | first [reflexivity | exfalso; destruct H as [(? & ? & H)|(H & _)]; [discriminate H|lia]]
      | first [discriminate H | right; split; [lia|intros; discriminate]]
      | first [reflexivity | exfalso; destruct H as [H|(H & _)]; [discriminate H|lia]]]).
Qed.
