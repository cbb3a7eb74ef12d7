(** Proofs about the telegram layer. *)
From Verif Require Import CBase PBase MFrame SWire SFrame.

Lemma total_app l1 l2 : total (l1 ++ l2) = total l1 + total l2.
Proof. induction l1 as [|h t IH]; cbn [app total fold_right] in *; [reflexivity|].
  unfold total in *. cbn. lia. Qed.
Lemma total_cons b l : total (b :: l) = b + total l.
Proof. reflexivity. Qed.

Lemma byte_range_is_byte b : byte_range b <-> is_byte b.
Proof. unfold byte_range, is_byte. lia. Qed.
Lemma byte_range_bytes l : Forall byte_range l <-> bytes l.
Proof. unfold bytes. split; apply Forall_impl; intros a; rewrite byte_range_is_byte; auto. Qed.

Lemma sum_loop_ok d : forall n i ck,
  (i + n <= length d)%nat -> is_byte ck ->
  sum_loop n d i ck = Ok (u8 (ck + total (firstn n (skipn i d)))).
Proof.
  induction n as [|n IH]; intros i ck Hl Hc; cbn [sum_loop].
  - cbn. rewrite Z.add_0_r, u8_id by assumption. reflexivity.
  - rewrite rd_ok by lia. cbn [bind]. rewrite IH by (try lia; apply u8_byte). f_equal.
    assert (E : skipn i d = nth i d 0 :: skipn (S i) d).
    { clear - Hl. revert i Hl. induction d as [|h t IHd]; intros [|i] Hl; cbn in *; try lia; auto.
      rewrite IHd by lia. reflexivity. }
    rewrite E. cbn [firstn]. rewrite total_cons. unfold u8.
    rewrite Zplus_mod_idemp_l. f_equal. lia.
Qed.

Lemma ctrl_short_spec c : ctrl_short_ok c = true <-> short_code c.
Proof.
  unfold ctrl_short_ok, short_code. cbn [In Z.lor Pos.lor].
  change (Z.lor 90 32) with 122. change (Z.lor 91 32) with 123.
  rewrite !orb_true_iff, !Z.eqb_eq. intuition congruence.
Qed.
Lemma ctrl_long_spec c : ctrl_long_ok c = true <-> long_code c.
Proof.
  unfold ctrl_long_ok, long_code. cbn [In].
  change (Z.lor 83 32) with 115. change (Z.lor (Z.lor 8 16) 32) with 56.
  change (Z.lor 8 16) with 24. change (Z.lor 8 32) with 40.
  rewrite !orb_true_iff, !Z.eqb_eq. intuition congruence.
Qed.
Lemma short_code_byte c : short_code c -> is_byte c.
Proof. unfold short_code, is_byte. cbn. intuition lia. Qed.
Lemma long_code_byte c : long_code c -> is_byte c.
Proof. unfold long_code, is_byte. cbn. intuition lia. Qed.

(** Checksum of a frame object. *)
Lemma calc_checksum_long f : ftype f = T_LONG -> frame_obj f -> 0 <= data_size f <= 252 ->
  calc_checksum f = Ok ((control f + address f + ctrl_info f
                         + total (firstn (Z.to_nat (data_size f)) (fdata f))) mod 256).
Proof.
  intros Ht Ho Hd. unfold calc_checksum. rewrite Ht. cbn [Z.eqb T_LONG T_SHORT T_CONTROL Pos.eqb].
  unfold frame_obj, DATA_LEN in Ho.
  rewrite sum_loop_ok by (try apply u8_byte; lia). cbn [skipn]. f_equal. unfold u8.
  generalize (total (firstn (Z.to_nat (data_size f)) (fdata f))) as s. intros s. clear. lia.
Qed.
Lemma calc_checksum_short f : ftype f = T_SHORT ->
  calc_checksum f = Ok ((control f + address f) mod 256).
Proof. intros Ht. unfold calc_checksum. rewrite Ht. cbn. unfold u8. f_equal. clear. lia. Qed.
Lemma calc_checksum_control f : ftype f = T_CONTROL ->
  calc_checksum f = Ok ((control f + address f + ctrl_info f) mod 256).
Proof. intros Ht. unfold calc_checksum. rewrite Ht. cbn. unfold u8. f_equal. clear. lia. Qed.

(** ** mbus_frame_verify, characterised. *)
Definition consistent (f : frame) : Prop :=
  (ftype f = T_SHORT /\ start1 f = 0x10 /\ short_code (control f) /\ stop f = 0x16
   /\ checksum f = (control f + address f) mod 256) \/
  (ftype f = T_CONTROL /\ start1 f = 0x68 /\ start2 f = 0x68 /\ long_code (control f)
   /\ length1 f = 3 /\ length2 f = 3 /\ stop f = 0x16
   /\ checksum f = (control f + address f + ctrl_info f) mod 256) \/
  (ftype f = T_LONG /\ start1 f = 0x68 /\ start2 f = 0x68 /\ long_code (control f)
   /\ length1 f = (data_size f + 3) mod 256 /\ length2 f = length1 f /\ stop f = 0x16
   /\ checksum f = (control f + address f + ctrl_info f
                    + total (firstn (Z.to_nat (data_size f)) (fdata f))) mod 256).

Lemma verify_tail_spec f c : calc_checksum f = Ok c ->
  exists r, verify_tail f = Ok r /\ (r = 0 \/ r = -1) /\
  (r = 0 <-> stop f = 0x16 /\ checksum f = c).
Proof.
  intros Hc. unfold verify_tail. destruct (Z.eqb_spec (stop f) 0x16) as [E|E]; cbn [negb].
  - rewrite Hc. cbn [bind]. destruct (Z.eqb_spec (checksum f) c) as [E'|E']; cbn [negb];
      eexists; (split; [reflexivity|]); split; auto; intuition congruence.
  - eexists; (split; [reflexivity|]); split; auto; intuition congruence.
Qed.

Lemma verify_spec f : frame_obj f -> (ftype f = T_LONG -> 0 <= data_size f <= 252) ->
  ftype f <> T_ACK ->
  exists r, mbus_frame_verify f = Ok r /\ (r = 0 \/ r = -1) /\ (r = 0 <-> consistent f).
Proof.
  intros Ho Hd Hna. unfold mbus_frame_verify.
  destruct (Z.eqb_spec (ftype f) T_ACK) as [E|_]; [contradiction|].
  unfold T_ACK, T_SHORT, T_CONTROL, T_LONG in *.
  assert (Hno : forall r : Z, r = -1 -> (exists x : Z, Ok (-1) = Ok x /\ (x = 0 \/ x = -1) /\ (x = 0 <-> False))).
  { intros _ _. exists (-1). repeat split; auto; intros H; [discriminate|contradiction]. }
  specialize (Hno (-1) eq_refl).
  destruct (Z.eqb_spec (ftype f) 2) as [Es|Es].
  { assert (Hcs : consistent f <-> start1 f = 0x10 /\ short_code (control f) /\ stop f = 0x16
     /\ checksum f = (control f + address f) mod 256).
    { unfold consistent, T_SHORT, T_CONTROL, T_LONG. rewrite Es. intuition discriminate. }
    destruct (Z.eqb_spec (start1 f) 0x10) as [E1|E1]; cbn [negb].
    2:{ exists (-1). split; [reflexivity|]. split; [auto|]. rewrite Hcs. intuition lia. }
    destruct (ctrl_short_ok (control f)) eqn:E2; cbn [negb].
    2:{ exists (-1). split; [reflexivity|]. split; [auto|]. rewrite Hcs, <- ctrl_short_spec, E2.
        intuition (try lia; discriminate). }
    apply ctrl_short_spec in E2.
    destruct (verify_tail_spec f _ (calc_checksum_short f Es)) as (r & Hr & Hv & Hi).
    exists r. split; [exact Hr|]. split; [exact Hv|]. rewrite Hcs, Hi. intuition. }
  destruct (Z.eqb_spec (ftype f) 3) as [Ec|Ec]; cbn [orb].
  { assert (Hcs : consistent f <-> start1 f = 0x68 /\ start2 f = 0x68 /\ long_code (control f)
       /\ length1 f = 3 /\ length2 f = 3 /\ stop f = 0x16
       /\ checksum f = (control f + address f + ctrl_info f) mod 256).
    { unfold consistent, T_SHORT, T_CONTROL, T_LONG. rewrite Ec. intuition discriminate. }
    destruct (Z.eqb_spec (start1 f) 0x68) as [E1|E1]; cbn [negb orb].
    2:{ exists (-1). split; [reflexivity|]. split; [auto|]. rewrite Hcs. intuition lia. }
    destruct (Z.eqb_spec (start2 f) 0x68) as [E1'|E1']; cbn [negb].
    2:{ exists (-1). split; [reflexivity|]. split; [auto|]. rewrite Hcs. intuition lia. }
    destruct (ctrl_long_ok (control f)) eqn:E2; cbn [negb].
    2:{ exists (-1). split; [reflexivity|]. split; [auto|]. rewrite Hcs, <- ctrl_long_spec, E2.
        intuition (try lia; discriminate). }
    apply ctrl_long_spec in E2.
    destruct (Z.eqb_spec (length1 f) (length2 f)) as [E3|E3]; cbn [negb].
    2:{ exists (-1). split; [reflexivity|]. split; [auto|]. rewrite Hcs. intuition lia. }
    unfold calc_length. rewrite Ec. cbn [Z.eqb T_CONTROL Pos.eqb].
    destruct (Z.eqb_spec (length1 f) 3) as [E4|E4]; cbn [negb].
    2:{ exists (-1). split; [reflexivity|]. split; [auto|]. rewrite Hcs. intuition lia. }
    destruct (verify_tail_spec f _ (calc_checksum_control f Ec)) as (r & Hr & Hv & Hi).
    exists r. split; [exact Hr|]. split; [exact Hv|]. rewrite Hcs, Hi. intuition. }
  destruct (Z.eqb_spec (ftype f) 4) as [El|El].
  { specialize (Hd El).
    assert (Hcs : consistent f <-> start1 f = 0x68 /\ start2 f = 0x68 /\ long_code (control f)
       /\ length1 f = (data_size f + 3) mod 256 /\ length2 f = length1 f /\ stop f = 0x16
       /\ checksum f = (control f + address f + ctrl_info f
                    + total (firstn (Z.to_nat (data_size f)) (fdata f))) mod 256).
    { unfold consistent, T_SHORT, T_CONTROL, T_LONG. rewrite El. intuition discriminate. }
    destruct (Z.eqb_spec (start1 f) 0x68) as [E1|E1]; cbn [negb orb].
    2:{ exists (-1). split; [reflexivity|]. split; [auto|]. rewrite Hcs. clear - E1. intuition lia. }
    destruct (Z.eqb_spec (start2 f) 0x68) as [E1'|E1']; cbn [negb].
    2:{ exists (-1). split; [reflexivity|]. split; [auto|]. rewrite Hcs. clear - E1'. intuition lia. }
    destruct (ctrl_long_ok (control f)) eqn:E2; cbn [negb].
    2:{ exists (-1). split; [reflexivity|]. split; [auto|]. rewrite Hcs, <- ctrl_long_spec, E2.
        clear. intuition (try lia; discriminate). }
    apply ctrl_long_spec in E2.
    destruct (Z.eqb_spec (length1 f) (length2 f)) as [E3|E3]; cbn [negb].
    2:{ exists (-1). split; [reflexivity|]. split; [auto|]. rewrite Hcs. clear - E3. intuition congruence. }
    unfold calc_length. rewrite El. cbn [Z.eqb T_CONTROL T_LONG Pos.eqb]. unfold u8.
    destruct (Z.eqb_spec (length1 f) ((data_size f + 3) mod 256)) as [E4|E4]; cbn [negb].
    2:{ exists (-1). split; [reflexivity|]. split; [auto|]. rewrite Hcs. clear - E4. intuition congruence. }
    destruct (verify_tail_spec f _ (calc_checksum_long f El Ho Hd)) as (r & Hr & Hv & Hi).
    exists r. split; [exact Hr|]. split; [exact Hv|]. rewrite Hcs, Hi. intuition. }
  exists (-1). split; [reflexivity|]. split; [auto|].
  unfold consistent, T_SHORT, T_CONTROL, T_LONG. intuition congruence.
Qed.

(** ** mbus_parse on each shape of buffer. *)
Definition long_frame (l b3 c a ci : Z) (p : list Z) (ck st : Z) (f : frame) : frame :=
  mkF 0x68 l l b3 c a ci ck st (p ++ skipn (length p) (fdata f)) (Z.of_nat (length p))
      (if Z.of_nat (length p) =? 0 then T_CONTROL else T_LONG) 0.
Definition short_frame (c a ck st : Z) (f : frame) : frame :=
  mkF 0x10 (length1 f) (length2 f) (start2 f) c a (ctrl_info f) ck st (fdata f) (data_size f)
      T_SHORT 0.
Definition header_frame (l1 l2 : Z) (f : frame) : frame :=
  mkF 0x68 l1 l2 (start2 f) (control f) (address f) (ctrl_info f) (checksum f) (stop f) (fdata f)
      (data_size f) (ftype f) 0.
Definition ack_frame (f : frame) : frame :=
  mkF 0xE5 (length1 f) (length2 f) (start2 f) (control f) (address f) (ctrl_info f) (checksum f)
      (stop f) (fdata f) (data_size f) T_ACK 0.

Lemma parse_nil f : mbus_parse f [] = Ok (-1, f).
Proof. reflexivity. Qed.
Lemma parse_ack f tl : mbus_parse f (0xE5 :: tl) = Ok (0, ack_frame f).
Proof.
  unfold mbus_parse. destruct (Z.gtb_spec (Z.of_nat (length (0xE5 :: tl))) 0) as [H|H];
    [|cbn [length] in H; lia]. reflexivity.
Qed.
Lemma parse_bad_start f b tl : b <> 0xE5 -> b <> 0x10 -> b <> 0x68 ->
  mbus_parse f (b :: tl) = Ok (-4, set_next f 0).
Proof.
  intros H1 H2 H3. unfold mbus_parse.
  destruct (Z.gtb_spec (Z.of_nat (length (b :: tl))) 0) as [H|H]; [|cbn [length] in H; lia].
  cbn [rd nth_error bind].
  destruct (Z.eqb_spec b 0xE5); [contradiction|]. destruct (Z.eqb_spec b 0x10); [contradiction|].
  destruct (Z.eqb_spec b 0x68); [contradiction|]. reflexivity.
Qed.
Lemma parse_short_less f tl : (length tl < 4)%nat ->
  mbus_parse f (0x10 :: tl) = Ok (4 - Z.of_nat (length tl), set_next f 0).
Proof.
  intros H. unfold mbus_parse. cbn [length rd nth_error bind].
  destruct (Z.gtb_spec (Z.of_nat (S (length tl))) 0); [|lia].
  change (16 =? 229) with false. change (16 =? 16) with true. cbv iota.
  destruct (Z.ltb_spec (Z.of_nat (S (length tl))) 5); [|lia].
  f_equal. f_equal. lia.
Qed.
Lemma parse_short_more f tl : (4 < length tl)%nat ->
  mbus_parse f (0x10 :: tl) = Ok (-2, set_next f 0).
Proof.
  intros H. unfold mbus_parse. cbn [length rd nth_error bind].
  destruct (Z.gtb_spec (Z.of_nat (S (length tl))) 0); [|lia].
  change (16 =? 229) with false. change (16 =? 16) with true. cbv iota.
  destruct (Z.ltb_spec (Z.of_nat (S (length tl))) 5); [lia|].
  destruct (Z.eqb_spec (Z.of_nat (S (length tl))) 5); [lia|]. reflexivity.
Qed.
Lemma parse_short_exact f c a ck st :
  mbus_parse f [0x10; c; a; ck; st] =
  let* v := mbus_frame_verify (short_frame c a ck st f) in
  Ok (if v =? 0 then 0 else -3, short_frame c a ck st f).
Proof.
  unfold mbus_parse. cbn [length rd nth_error bind Z.of_nat].
  change (16 =? 229) with false. change (16 =? 16) with true. cbv iota.
  cbn -[mbus_frame_verify].
  fold (short_frame c a ck st f).
  destruct (mbus_frame_verify _) as [v|]; [|reflexivity]. cbn [bind].
  destruct (v =? 0); reflexivity.
Qed.
Lemma parse_long_tiny f tl : (length tl < 2)%nat ->
  mbus_parse f (0x68 :: tl) = Ok (2 - Z.of_nat (length tl), set_next f 0).
Proof.
  intros H. unfold mbus_parse. cbn [length rd nth_error bind].
  destruct (Z.gtb_spec (Z.of_nat (S (length tl))) 0); [|lia].
  change (104 =? 229) with false. change (104 =? 16) with false. change (104 =? 104) with true. cbv iota.
  destruct (Z.ltb_spec (Z.of_nat (S (length tl))) 3); [|lia].
  f_equal. f_equal. lia.
Qed.
Lemma parse_long_hdr f l1 l2 tl : 
  mbus_parse f (0x68 :: l1 :: l2 :: tl) =
  let f1 := header_frame l1 l2 f in
  if l1 <? 3 then Ok (-2, f1)
  else if negb (l1 =? l2) then Ok (-2, f1)
  else if Z.of_nat (length tl) <? 3 + l1 then Ok (3 + l1 - Z.of_nat (length tl), f1)
  else if Z.of_nat (length tl) >? 3 + l1 then Ok (-2, f1)
  else mbus_parse f (0x68 :: l1 :: l2 :: tl).
Proof.
  unfold mbus_parse. cbn [length].
  destruct (Z.gtb_spec (Z.of_nat (S (S (S (length tl))))) 0); [|lia].
  cbn [rd nth_error bind].
  change (104 =? 229) with false. change (104 =? 16) with false. change (104 =? 104) with true. cbv iota.
  destruct (Z.ltb_spec (Z.of_nat (S (S (S (length tl))))) 3); [lia|].
  cbv zeta. fold (header_frame l1 l2 f).
  destruct (Z.ltb_spec l1 3); [reflexivity|].
  destruct (negb (l1 =? l2)); [reflexivity|].
  destruct (Z.ltb_spec (Z.of_nat (S (S (S (length tl))))) (6 + l1));
  destruct (Z.ltb_spec (Z.of_nat (length tl)) (3 + l1)); try lia.
  { f_equal. f_equal. lia. }
  destruct (Z.gtb_spec (Z.of_nat (S (S (S (length tl))))) (6 + l1));
  destruct (Z.gtb_spec (Z.of_nat (length tl)) (3 + l1)); try lia; reflexivity.
Qed.

Lemma parse_long_exact f b3 c a ci p ck st l :
  frame_obj f -> (length p <= 252)%nat -> l = Z.of_nat (length p) + 3 ->
  mbus_parse f (0x68 :: l :: l :: b3 :: c :: a :: ci :: p ++ [ck; st]) =
  let* v := mbus_frame_verify (long_frame l b3 c a ci p ck st f) in
  Ok (if v =? 0 then 0 else -3, long_frame l b3 c a ci p ck st f).
Proof.
  intros Ho Hp ->. unfold mbus_parse. set (n := Z.of_nat (length p)).
  set (bs := 0x68 :: n + 3 :: n + 3 :: b3 :: c :: a :: ci :: p ++ [ck; st]).
  assert (Hlen : length bs = (9 + length p)%nat).
  { unfold bs. cbn [length]. rewrite app_length. cbn [length]. lia. }
  rewrite Hlen.
  destruct (Z.gtb_spec (Z.of_nat (9 + length p)) 0); [|lia].
  replace (rd bs 0) with (@Ok Z 0x68) by reflexivity. cbn [bind].
  change (104 =? 229) with false. change (104 =? 16) with false. change (104 =? 104) with true. cbv iota.
  destruct (Z.ltb_spec (Z.of_nat (9 + length p)) 3); [lia|].
  replace (rd bs 1) with (Ok (n + 3)) by reflexivity. replace (rd bs 2) with (Ok (n + 3)) by reflexivity.
  cbn [bind]. cbv zeta.
  destruct (Z.ltb_spec (n + 3) 3); [lia|]. rewrite Z.eqb_refl. cbn [negb].
  destruct (Z.ltb_spec (Z.of_nat (9 + length p)) (6 + (n + 3))); [lia|].
  destruct (Z.gtb_spec (Z.of_nat (9 + length p)) (6 + (n + 3))); [lia|].
  replace (rd bs 3) with (Ok b3) by reflexivity. replace (rd bs 4) with (Ok c) by reflexivity.
  replace (rd bs 5) with (Ok a) by reflexivity. replace (rd bs 6) with (Ok ci) by reflexivity.
  cbn [bind].
  replace (n + 3 - 3) with n by lia. unfold n at 1. rewrite Nat2Z.id. cbn [fdata set_next].
  rewrite copy_loop_ok.
  2:{ unfold frame_obj, DATA_LEN in Ho. lia. }
  2:{ rewrite Hlen. lia. }
  cbn [bind firstn app Nat.add].
  replace (skipn 7 bs) with (p ++ [ck; st]) by reflexivity.
  rewrite firstn_app_exact by reflexivity.
  assert (E2 : rd bs (S (S (S (S (S (S (S (S (S (length p))))))))) - 2) = Ok ck).
  { replace (S (S (S (S (S (S (S (S (S (length p))))))))) - 2)%nat
      with (S (S (S (S (S (S (S (length p)))))))) by lia.
    change (rd (p ++ [ck; st]) (length p) = Ok ck). apply rd_app_exact. reflexivity. }
  assert (E1 : rd bs (S (S (S (S (S (S (S (S (S (length p))))))))) - 1) = Ok st).
  { replace (S (S (S (S (S (S (S (S (S (length p))))))))) - 1)%nat
      with (S (S (S (S (S (S (S (S (length p))))))))) by lia.
    change (rd (p ++ [ck; st]) (S (length p)) = Ok st).
    rewrite rd_app2 by lia. replace (S (length p) - length p)%nat with 1%nat by lia. reflexivity. }
  rewrite E2, E1. cbn [bind]. cbn [fnext set_next].
  fold (long_frame (n + 3) b3 c a ci p ck st f).
  destruct (mbus_frame_verify _) as [v|]; [|reflexivity]. cbn [bind].
  destruct (v =? 0); reflexivity.
Qed.

(** Splitting a complete long buffer. *)
Lemma long_split (tl : list Z) l : 3 <= l -> Z.of_nat (length tl) = 3 + l ->
  exists b3 c a ci p ck st, tl = b3 :: c :: a :: ci :: p ++ [ck; st] /\ l = Z.of_nat (length p) + 3.
Proof.
  intros Hl Hn.
  destruct tl as [|b3 [|c [|a [|ci r]]]]; cbn [length] in Hn; try lia.
  assert (Hr : length r = (Z.to_nat (l - 3) + 2)%nat) by lia.
  set (k := Z.to_nat (l - 3)) in *.
  assert (Hs : length (skipn k r) = 2%nat) by (rewrite skipn_length; lia).
  destruct (skipn k r) as [|ck [|st [|x y]]] eqn:E; cbn in Hs; try lia.
  exists b3, c, a, ci, (firstn k r), ck, st. split.
  - rewrite <- E, firstn_skipn. reflexivity.
  - rewrite firstn_length. lia.
Qed.

(** ** Totality: mbus_parse never has undefined behaviour, and the object stays well shaped. *)
Lemma frame_obj_short c a ck st f : frame_obj f -> frame_obj (short_frame c a ck st f).
Proof. auto. Qed.
Lemma frame_obj_long l b3 c a ci p ck st f : frame_obj f -> (length p <= 252)%nat ->
  frame_obj (long_frame l b3 c a ci p ck st f).
Proof.
  unfold frame_obj, long_frame, DATA_LEN. cbn [fdata]. intros Ho Hp.
  rewrite app_length, skipn_length. lia.
Qed.

Lemma verify_long f l b3 c a ci p ck st : frame_obj f -> (length p <= 252)%nat ->
  exists r, mbus_frame_verify (long_frame l b3 c a ci p ck st f) = Ok r /\ (r = 0 \/ r = -1) /\
            (r = 0 <-> consistent (long_frame l b3 c a ci p ck st f)).
Proof.
  intros Ho Hp. apply verify_spec.
  - apply frame_obj_long; assumption.
  - cbn [ftype long_frame data_size]. lia.
  - cbn [ftype long_frame]. destruct (Z.of_nat (length p) =? 0); discriminate.
Qed.
Lemma verify_short f c a ck st : frame_obj f ->
  exists r, mbus_frame_verify (short_frame c a ck st f) = Ok r /\ (r = 0 \/ r = -1) /\
            (r = 0 <-> consistent (short_frame c a ck st f)).
Proof.
  intros Ho. apply verify_spec; [assumption| |]; cbn [ftype short_frame]; discriminate.
Qed.

Lemma consistent_short f c a ck st :
  consistent (short_frame c a ck st f) <->
  short_code c /\ st = 0x16 /\ ck = (c + a) mod 256.
Proof. unfold consistent, short_frame, T_SHORT, T_CONTROL, T_LONG. cbn. intuition discriminate. Qed.
Lemma consistent_long f l b3 c a ci p ck st : frame_obj f -> (length p <= 252)%nat ->
  l = Z.of_nat (length p) + 3 ->
  (consistent (long_frame l b3 c a ci p ck st f) <->
   b3 = 0x68 /\ long_code c /\ st = 0x16 /\ ck = (c + a + ci + total p) mod 256).
Proof.
  intros Ho Hp ->. unfold consistent, long_frame.
  cbn [ftype start1 start2 control address ctrl_info length1 length2 stop checksum data_size fdata].
  rewrite Nat2Z.id, firstn_app_exact by reflexivity.
  unfold T_SHORT, T_CONTROL, T_LONG.
  destruct (Z.eqb_spec (Z.of_nat (length p)) 0) as [E|E].
  - destruct p; [|cbn in E; lia]. cbn [length total fold_right]. rewrite !Z.add_0_r.
    change (Z.of_nat 0) with 0. intuition (try discriminate; auto).
  - assert (E3 : (Z.of_nat (length p) + 3) mod 256 = Z.of_nat (length p) + 3) by lia.
    rewrite E3. intuition (try discriminate; auto).
Qed.

(** Complete description of mbus_parse's return value on any buffer. *)
Lemma parse_total f bs : frame_obj f -> bytes bs ->
  exists r f', mbus_parse f bs = Ok (r, f') /\ frame_obj f'.
Proof.
  intros Ho Hb. destruct bs as [|b tl]; [eexists _, _; split; [reflexivity|assumption]|].
  destruct (Z.eq_dec b 0xE5) as [->|N1]; [rewrite parse_ack; eexists _, _; split; [reflexivity|assumption]|].
  destruct (Z.eq_dec b 0x10) as [->|N2].
  { destruct (lt_eq_lt_dec (length tl) 4) as [[H|H]|H].
    - rewrite parse_short_less by assumption. eexists _, _; split; [reflexivity|assumption].
    - destruct tl as [|c [|a [|ck [|st [|? ?]]]]]; cbn in H; try lia.
      rewrite parse_short_exact.
      destruct (verify_short f c a ck st Ho) as (r & Hr & _). rewrite Hr. cbn [bind].
      eexists _, _; split; [reflexivity|assumption].
    - rewrite parse_short_more by assumption. eexists _, _; split; [reflexivity|assumption]. }
  destruct (Z.eq_dec b 0x68) as [->|N3].
  2:{ rewrite parse_bad_start by assumption. eexists _, _; split; [reflexivity|assumption]. }
  destruct tl as [|l1 [|l2 tl]].
  1,2: rewrite parse_long_tiny by (cbn; lia); eexists _, _; split; [reflexivity|assumption].
  rewrite parse_long_hdr. cbv zeta.
  destruct (Z.ltb_spec l1 3); [eexists _, _; split; [reflexivity|assumption]|].
  destruct (Z.eqb_spec l1 l2) as [<-|]; cbn [negb]; [|eexists _, _; split; [reflexivity|assumption]].
  destruct (Z.ltb_spec (Z.of_nat (length tl)) (3 + l1)); [eexists _, _; split; [reflexivity|assumption]|].
  destruct (Z.gtb_spec (Z.of_nat (length tl)) (3 + l1)); [eexists _, _; split; [reflexivity|assumption]|].
  destruct (long_split tl l1) as (b3 & c & a & ci & p & ck & st & -> & Hl); [lia|lia|].
  assert (Hp : (length p <= 252)%nat).
  { rewrite !bytes_cons in Hb. unfold is_byte in Hb. lia. }
  rewrite parse_long_exact by assumption.
  destruct (verify_long f l1 b3 c a ci p ck st Ho Hp) as (r & Hr & _). rewrite Hr. cbn [bind].
  eexists _, _; split; [reflexivity|]. apply frame_obj_long; assumption.
Qed.

(** ** Acceptance: soundness. *)
Lemma parse_sound f bs f' : frame_obj f -> bytes bs -> mbus_parse f bs = Ok (0, f') ->
  (exists tl, bs = 0xE5 :: tl /\ f' = ack_frame f) \/
  (exists c a, valid (Short c a) /\ bs = wire (Short c a) /\
               f' = short_frame c a ((c + a) mod 256) 0x16 f) \/
  (exists c a ci p, (length p <= 252)%nat /\
      valid (match p with [] => Control c a ci | _ => Long c a ci p end) /\
      bs = wire (match p with [] => Control c a ci | _ => Long c a ci p end) /\
      f' = long_frame (Z.of_nat (length p) + 3) 0x68 c a ci p ((c + a + ci + total p) mod 256) 0x16 f).
Proof.
  intros Ho Hb H. destruct bs as [|b tl]; [rewrite parse_nil in H; discriminate|].
  destruct (Z.eq_dec b 0xE5) as [->|N1].
  { rewrite parse_ack in H. inversion H. left. eauto. }
  destruct (Z.eq_dec b 0x10) as [->|N2].
  { right; left. destruct (lt_eq_lt_dec (length tl) 4) as [[Hl|Hl]|Hl].
    - rewrite parse_short_less in H by assumption. apply ok_inj2 in H. lia.
    - destruct tl as [|c [|a [|ck [|st [|? ?]]]]]; cbn in Hl; try lia.
      rewrite parse_short_exact in H.
      destruct (verify_short f c a ck st Ho) as (r & Hr & Hv & Hi). rewrite Hr in H. cbn [bind] in H.
      destruct (Z.eqb_spec r 0) as [E|E]; inversion H; subst.
      rewrite consistent_short in Hi. destruct (proj1 Hi eq_refl) as (Hc & -> & ->).
      exists c, a. rewrite !bytes_cons in Hb. split; [|split; reflexivity].
      cbn [valid]. rewrite byte_range_is_byte. tauto.
    - rewrite parse_short_more in H by assumption. discriminate. }
  destruct (Z.eq_dec b 0x68) as [->|N3].
  2:{ rewrite parse_bad_start in H by assumption. discriminate. }
  destruct tl as [|l1 [|l2 tl]].
  1,2: rewrite parse_long_tiny in H by (cbn; lia); discriminate.
  rewrite parse_long_hdr in H. cbv zeta in H.
  destruct (Z.ltb_spec l1 3); [discriminate|].
  destruct (Z.eqb_spec l1 l2) as [<-|]; cbn [negb] in H; [|discriminate].
  destruct (Z.ltb_spec (Z.of_nat (length tl)) (3 + l1)); [apply ok_inj2 in H; lia|].
  destruct (Z.gtb_spec (Z.of_nat (length tl)) (3 + l1)); [discriminate|].
  destruct (long_split tl l1) as (b3 & c & a & ci & p & ck & st & -> & Hl); [lia|lia|].
  rewrite !bytes_cons, bytes_app, !bytes_cons in Hb.
  assert (Hp : (length p <= 252)%nat).
  { destruct Hb as (_ & Hb1 & _). unfold is_byte in Hb1. lia. }
  rewrite parse_long_exact in H by assumption.
  destruct (verify_long f l1 b3 c a ci p ck st Ho Hp) as (r & Hr & Hv & Hi).
  rewrite Hr in H. cbn [bind] in H.
  rewrite consistent_long in Hi by assumption.
  destruct (Z.eqb_spec r 0) as [E|E]; inversion H; subst.
  destruct (proj1 Hi eq_refl) as (-> & Hc & -> & ->).
  right; right. exists c, a, ci, p. split; [assumption|].
  destruct p as [|p0 p].
  - cbn [total fold_right length]. rewrite Z.add_0_r. change (Z.of_nat 0 + 3) with 3.
    split; [|split; reflexivity]. cbn [valid]. rewrite !byte_range_is_byte. tauto.
  - split; [|split; reflexivity]. cbn [valid]. rewrite !byte_range_is_byte.
    split; [assumption|]. split; [tauto|]. split; [tauto|].
    split; [apply byte_range_bytes; tauto|]. cbn [length] in *. lia.
Qed.

(** ** Acceptance: completeness. *)
Definition parsed (t : telegram) (f : frame) : frame :=
  match t with
  | Ack => ack_frame f
  | Short c a => short_frame c a ((c + a) mod 256) 0x16 f
  | Control c a ci => long_frame 3 0x68 c a ci [] ((c + a + ci) mod 256) 0x16 f
  | Long c a ci p =>
      long_frame (Z.of_nat (length p) + 3) 0x68 c a ci p ((c + a + ci + total p) mod 256) 0x16 f
  end.

Lemma parse_wire f t : frame_obj f -> valid t -> mbus_parse f (wire t) = Ok (0, parsed t f).
Proof.
  intros Ho Hv. destruct t as [|c a|c a ci|c a ci p]; cbn [wire parsed].
  - apply parse_ack.
  - rewrite parse_short_exact.
    destruct (verify_short f c a ((c + a) mod 256) 0x16 Ho) as (r & Hr & Hrv & Hi).
    rewrite Hr. cbn [bind]. rewrite consistent_short in Hi. cbn [valid] in Hv.
    rewrite (proj2 Hi) by tauto. reflexivity.
  - change [104; 3; 3; 104; c; a; ci; (c + a + ci) mod 256; 22]
      with (0x68 :: 3 :: 3 :: 0x68 :: c :: a :: ci :: [] ++ [(c + a + ci) mod 256; 22]).
    rewrite parse_long_exact; [|assumption|cbn; lia|reflexivity].
    destruct (verify_long f 3 0x68 c a ci [] ((c + a + ci) mod 256) 22 Ho) as (r & Hr & Hrv & Hi);
      [cbn; lia|].
    rewrite Hr. cbn [bind]. rewrite consistent_long in Hi by (try assumption; try reflexivity; cbn; lia).
    cbn [valid] in Hv. cbn [total fold_right] in Hi. rewrite Z.add_0_r in Hi.
    rewrite (proj2 Hi) by tauto. reflexivity.
  - cbn [app]. cbn [valid] in Hv.
    rewrite parse_long_exact; [|assumption|lia|reflexivity].
    destruct (verify_long f (Z.of_nat (length p) + 3) 0x68 c a ci p
                ((c + a + ci + total p) mod 256) 22 Ho) as (r & Hr & Hrv & Hi); [lia|].
    rewrite Hr. cbn [bind]. rewrite consistent_long in Hi by (try assumption; try reflexivity; lia).
    rewrite (proj2 Hi) by tauto. reflexivity.
Qed.

Lemma denotes_parsed t f : frame_obj f -> valid t -> denotes (parsed t f) t.
Proof.
  intros Ho Hv. destruct t as [|c a|c a ci|c a ci p]; cbn; auto.
  - cbn [valid] in Hv. destruct Hv as (_ & _ & _ & _ & Hp).
    destruct (Z.eqb_spec (Z.of_nat (length p)) 0); [lia|].
    repeat split. apply firstn_app_exact. reflexivity.
Qed.
