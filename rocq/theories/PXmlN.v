(** Proofs: normalised XML documents. *)
From Coq Require Import String.
From Coq Require Import List.
From Coq Require Import Qabs Qpower Lqa.
From Verif Require Import CBase PBase CStr MFrame MCodec MVar MText MXml MUnit MXmlN SText SCodec SVar SXml SUnit SNorm SXmlN.
From Verif Require Import PCodec PCodec2 PVar PVar2 PVar3 PropVar PXml PXml2 PText PText2 PText3 PXml3 PXml4 PropText PropUnit PReq2 PDouble PNorm PropNorm.

(** ** Printed numbers *)
Lemma plainb_all l : forallb plainb l = true -> Forall plain l.
Proof. intros H. apply Forall_forall. intros c Hc. rewrite forallb_forall in H. apply plainb_ok. auto. Qed.
Lemma print_f_shows x : shows_number x (print_f x).
Proof.
  destruct x as [q|s m]; [|destruct s, m; reflexivity]. unfold shows_number, print_f.
  destruct q as [a d]. cbn [Qnum Qden]. set (n := round_div (Z.abs a * 10 ^ 6) (Z.pos d)).
  assert (N0 : 0 <= n) by (apply round_div_nonneg; lia).
  pose proof (round_div_nearest (Z.abs a * 10 ^ 6) (Z.pos d) ltac:(lia)) as R. fold n in R.
  assert (Hm : 0 <= n mod 10 ^ 6 < 1000000) by (apply Z.mod_pos_bound; lia).
  exists (if a <? 0 then - n else n). split; [|split].
  - assert (RD := read_fraction (n / 10 ^ 6) (n mod 10 ^ 6) ltac:(apply Z.div_pos; lia) Hm (a <? 0)). rewrite RD.
    pose proof (Z.div_mod n (10 ^ 6) ltac:(lia)) as DM. change (10 ^ 6) with 1000000 in *. destruct (a <? 0); f_equal; lia.
  - unfold Qle, Qabs, Qminus, Qplus, Qopp. cbn [Qnum Qden]. change (10 ^ 6) with 1000000 in *.
    rewrite !Pos2Z.inj_mul. destruct (Z.ltb_spec a 0); lia.
  - unfold Qlt. cbn [Qnum Qden]. destruct (Z.ltb_spec a 0).
    + split; [reflexivity|lia].
    + split; [lia|]. intros H1. exfalso. cbn [app] in H1.
      pose proof (fmt_u_chars (n / 10 ^ 6) ltac:(apply Z.div_pos; lia)) as C. pose proof (fmt_digits_nonempty hex_upper 10 (n / 10 ^ 6)) as NE.
      unfold fmt_u in *. destruct (fmt_digits hex_upper 10 (n / 10 ^ 6)) as [|c t]; [congruence|]. inversion_clear C as [|? ? C1 _]. cbn in H1. unfold dec_char in C1. lia.
Qed.
Definition bounded (b : Z) (x : real) : Prop := match x with Num q => (Qabs q <= inject_Z b)%Q | NonFinite _ _ => True end.
Lemma print_f_text x : bounded (10 ^ 60) x -> Forall plain (print_f x) /\ (length (print_f x) <= 80)%nat.
Proof.
  destruct x as [q|s m]; [|intros _; destruct s, m; (split; [apply plainb_all; reflexivity|cbn; lia])].
  destruct q as [a d]. unfold bounded, Qle, Qabs, inject_Z. cbn [Qnum Qden]. intros B. unfold print_f. cbn [Qnum Qden].
  set (n := round_div (Z.abs a * 10 ^ 6) (Z.pos d)).
  assert (N0 : 0 <= n) by (apply round_div_nonneg; lia).
  pose proof (round_div_nearest (Z.abs a * 10 ^ 6) (Z.pos d) ltac:(lia)) as R. fold n in R.
  assert (N1 : n <= 10 ^ 66 + 1).
  { set (E := 10 ^ 60) in *. assert (E6 : 10 ^ 66 = E * 10 ^ 6) by reflexivity. rewrite E6. change (10 ^ 6) with 1000000 in *.
    assert (D : 0 < Z.pos d) by lia. assert (0 <= E) by (unfold E; lia). set (D' := Z.pos d) in *. clearbody E D' n. clear E6. nia. }
  assert (Hm : 0 <= n mod 10 ^ 6 < 1000000) by (apply Z.mod_pos_bound; lia).
  assert (Hd : 0 <= n / 10 ^ 6 < 10 ^ Z.of_nat 61).
  { split; [apply Z.div_pos; lia|]. apply Z.div_lt_upper_bound; [lia|]. change (10 ^ 6 * 10 ^ Z.of_nat 61) with (10 * 10 ^ 66).
    assert (1 < 10 ^ 66) by reflexivity. lia. }
  pose proof (fmt_u_len (n / 10 ^ 6) 60 Hd) as L1. pose proof (fmt_u_len (n mod 10 ^ 6) 5 ltac:(change (10 ^ Z.of_nat 6) with 1000000; lia)) as L2.
  assert (DP : forall z, 0 <= z -> Forall plain (fmt_u z)).
  { intros z Hz. eapply Forall_impl; [|apply fmt_u_chars; exact Hz]. unfold dec_char, plain. lia. }
  split.
  - apply Forall_app. split; [destruct (a <? 0); [apply Forall_cons; [unfold plain; lia|apply Forall_nil]|apply Forall_nil]|].
    apply Forall_app. split; [apply DP; lia|]. apply Forall_cons; [unfold plain; lia|]. apply zpad_chars; [unfold plain; lia|]. apply DP. lia.
  - rewrite !app_length. cbn [length]. rewrite zpad_len. destruct (a <? 0); cbn [length]; lia.
Qed.

(** ** Bounds of numbers *)
Lemma dround_bound b q : (Qabs q <= inject_Z b)%Q -> (Qabs (dround q) <= inject_Z (2 * b))%Q.
Proof.
  intros H. pose proof (dround_within q) as W. unfold within in W. rewrite err_ulp in W.
  setoid_replace (dround q) with ((dround q - q) + q)%Q by ring. eapply Qle_trans; [apply Qabs_triangle|].
  rewrite inject_Z_mult. pose proof (Qabs_nonneg q). change (inject_Z 2) with 2%Q. lra.
Qed.
Lemma bounded_le b b' x : b <= b' -> bounded b x -> bounded b' x.
Proof. intros L. destruct x; cbn; [|auto]. intros H. eapply Qle_trans; [exact H|]. rewrite <- Zle_Qle. assumption. Qed.
Lemma bounded_mul b c x f : 0 <= c -> bounded b x -> (0 <= f)%Q -> (f <= inject_Z c)%Q -> bounded (2 * (b * c)) (rmul x f).
Proof.
  intros Hc. destruct x as [q|]; cbn [bounded rmul]; [|auto]. intros H F0 F. apply dround_bound. rewrite Qabs_Qmult, (Qabs_pos f) by assumption.
  rewrite inject_Z_mult. apply Qle_trans with (inject_Z b * f)%Q; [apply Qmult_le_compat_r; assumption|].
  rewrite !(Qmult_comm (inject_Z b)). apply Qmult_le_compat_r; [assumption|]. eapply Qle_trans; [apply Qabs_nonneg|exact H].
Qed.
Lemma bounded_add b c x f : bounded b x -> (0 <= f)%Q -> (f <= inject_Z c)%Q -> bounded (2 * (b + c)) (radd x f).
Proof.
  destruct x as [q|]; cbn [bounded radd]; [|auto]. intros H F0 F. apply dround_bound. eapply Qle_trans; [apply Qabs_triangle|].
  rewrite (Qabs_pos f) by assumption. rewrite inject_Z_plus. apply Qplus_le_compat; assumption.
Qed.
Lemma bounded_of b z : Z.abs z <= b -> bounded (2 * b) (real_of z).
Proof. intros H. cbn [bounded real_of]. apply dround_bound. unfold Qle, Qabs, inject_Z. cbn [Qnum Qden]. lia. Qed.
Lemma bounded_bits bits : 0 <= bits < 2 ^ 32 -> bounded (2 ^ 128) (real_of_bits bits).
Proof.
  intros H. unfold real_of_bits. rewrite !Z.shiftr_div_pow2 by lia.
  change 0xFF with (Z.ones 8). change 0x7FFFFF with (Z.ones 23). rewrite !Z.land_ones by lia. change (2 ^ 8) with 256. change (Z.ones 8) with 255.
  set (s := bits / 2 ^ 31). set (e := (bits / 2 ^ 23) mod 256). set (m := bits mod 2 ^ 23).
  destruct (Z.eqb_spec e 255) as [E|N]; [exact I|].
  assert (He : 0 <= e < 256) by (apply Z.mod_pos_bound; lia). assert (Hm : 0 <= m < 2 ^ 23) by (apply Z.mod_pos_bound; lia).
  set (sig := (if e =? 0 then m else m + 2 ^ 23) * (if s =? 0 then 1 else -1)).
  assert (Hs : Z.abs sig <= 2 ^ 24).
  { unfold sig. change (2 ^ 23) with 8388608 in *. change (2 ^ 24) with 16777216. destruct (e =? 0), (s =? 0); lia. }
  set (ex := if e =? 0 then -149 else e - 150). assert (Hx : -149 <= ex <= 104) by (unfold ex; destruct (Z.eqb_spec e 0); lia).
  clearbody sig ex. cbn [bounded]. destruct (Z.ltb_spec ex 0).
  - assert (P0 : 0 < 2 ^ (- ex)) by (apply Z.pow_pos_nonneg; lia). unfold Qle, Qabs, inject_Z. cbn [Qnum Qden].
    destruct (2 ^ (- ex)) as [|p|p]; lia.
  - unfold Qle, Qabs, inject_Z. cbn [Qnum Qden]. rewrite !Z.mul_1_r, Z.abs_mul. assert (P1 : 0 < 2 ^ ex <= 2 ^ 104) by (split; [apply Z.pow_pos_nonneg; lia|apply Z.pow_le_mono_r; lia]).
    rewrite (Z.abs_eq (2 ^ ex)) by lia. change (2 ^ 128) with (2 ^ 24 * 2 ^ 104). apply Z.mul_le_mono_nonneg; lia.
Qed.

(** ** Decoded values *)
Lemma put_list_bytes : forall l dst off b, put_list dst off l = Ok b -> bytes dst -> bytes l -> bytes b.
Proof.
  induction l as [|c l IH]; intros dst off b E Hd Hl; cbn [put_list] in E; [apply ok_inj in E; subst; assumption|].
  destruct (wr dst off c) as [d1|] eqn:Ew; [|discriminate]. cbn [bind] in E. inversion_clear Hl as [|? ? H1 H2].
  apply (IH _ _ _ E); [|assumption]. apply wr_inv in Ew. destruct Ew as [_ ->]. apply PReq2.upd_bytes; assumption.
Qed.
Definition good_decoded (d : decoded) : Prop :=
  match e_str d with Some s => c_chars s | None => bounded (2 ^ 129) (e_real d) end.
Lemma value_good a d : wf_rec a -> mbus_variable_value_decode (obj a) = Ok d -> good_decoded d.
Proof.
  intros W. assert (P := obj_parsed a W). rewrite value_unfold by assumption. cbv zeta. change (r_dif (obj a)) with (a_dif a).
  assert (Hb : bytes (r_data (obj a))) by apply P. assert (Hl : length (r_data (obj a)) = 234%nat) by apply P.
  assert (B : (r_len (obj a) <= 234)%nat) by apply P.
  assert (NUM : forall ret z size, Z.abs z <= 2 ^ 64 -> good_decoded (mkDec ret (real_of z) None size)).
  { intros ret z size H. unfold good_decoded. cbn [e_str e_real]. apply (bounded_le (2 * 2 ^ 64)); [discriminate|]. apply bounded_of. assumption. }
  assert (TW : forall n l, (n <= 8)%nat -> bytes l -> length l = n -> Z.abs (twos n (le l)) <= 2 ^ 64).
  { intros n l Hn Bl Ll. pose proof (le_bounds l Bl) as LB. rewrite Ll in LB. change (2 ^ 64) with (256 ^ 8).
    assert (M : 256 ^ Z.of_nat n <= 256 ^ 8) by (apply Z.pow_le_mono_r; lia). pose proof (twos_abs n (le l)) as T. destruct n; [destruct l; [cbn; lia|discriminate]|]. specialize (T ltac:(lia) LB). lia. }
  assert (FL : forall n, (n <= 8)%nat -> length (firstn n (r_data (obj a))) = n) by (intros n Hn; rewrite firstn_length; lia).
  assert (INT : forall n, (1 <= n <= 4)%nat -> (let* (ret, v) := mbus_data_int_decode (r_data (obj a)) n in Ok (mkDec ret (real_of v) None 0)) = Ok d -> good_decoded d).
  { intros n Hn. rewrite int_decode_spec by (try assumption; lia). cbn [bind]. intros E. apply ok_inj in E. subst d. apply NUM, TW; [lia|apply bytes_firstn; assumption|apply FL; lia]. }
  assert (LL : forall n, (1 <= n <= 8)%nat -> (let* (ret, v) := mbus_data_long_long_decode (r_data (obj a)) n in Ok (mkDec ret (real_of v) None 0)) = Ok d -> good_decoded d).
  { intros n Hn. rewrite long_long_decode_spec by (try assumption; lia). cbn [bind]. intros E. apply ok_inj in E. subst d. apply NUM, TW; [lia|apply bytes_firstn; assumption|apply FL; lia]. }
  assert (BCD : forall n, (1 <= n <= 6)%nat -> (let* v := mbus_data_bcd_decode (r_data (obj a)) n in Ok (dec_num (real_of v))) = Ok d -> good_decoded d).
  { intros n Hn. destruct (bcd_decode_total (r_data (obj a)) n Hb ltac:(lia) ltac:(lia)) as (v & -> & Bv). cbn [bind]. intros E. apply ok_inj in E. subst d. apply NUM.
    assert (100 ^ Z.of_nat n <= 100 ^ 6) by (apply Z.pow_le_mono_r; lia). change (100 ^ 6) with 1000000000000 in *. change (2 ^ 64) with 18446744073709551616. lia. }
  assert (PUT : forall m size (s : list Z), c_chars s -> dec_text m size (fun b => put_list b 0 (cut m s ++ [0])) = Ok d -> good_decoded d).
  { intros m size s Hc. unfold dec_text. destruct (put_list _ _ _) as [b|] eqn:Eb; [|discriminate]. cbn [bind]. intros E. apply ok_inj in E. subst d. unfold good_decoded. cbn [e_str].
    apply c_text_chars. apply (put_list_bytes _ _ _ _ Eb); [apply zeros_bytes|]. apply Forall_app. split; [|constructor; [unfold is_byte; lia|constructor]].
    eapply Forall_impl; [|apply c_chars_cut; exact Hc]. unfold is_byte. cbv beta. intros; lia. }
  assert (DT : forall n, (n <= 8)%nat -> (let* t := mbus_data_tm_decode (r_data (obj a)) n in dec_text 21 (Z.of_nat (length (fmt_datetime t ++ [90]))) (fun b => put_list b 0 (cut 21 (fmt_datetime t ++ [90]) ++ [0]))) = Ok d -> good_decoded d).
  { intros n Hn. destruct (tm_total (r_data (obj a)) n Hb ltac:(lia)) as (t & -> & Rt & _). cbn [bind]. apply PUT. apply Forall_app. split; [apply plain_chars, datetime_short; apply in_range_small; assumption|]. constructor; [lia|constructor]. }
  assert (HEX : forall src n size, bytes src -> (n <= length src)%nat -> dec_text (3 * n + 1) size (fun b => mbus_data_bin_decode b src n (3 * n + 1)) = Ok d -> good_decoded d).
  { intros src n size Bs Ls. rewrite text_hex by assumption. intros E. apply ok_inj in E. subst d. unfold good_decoded. cbn [e_str]. apply plain_chars, hex_text_plain, Forall_rev, bytes_firstn. assumption. }
  pose proof (Z.mod_pos_bound (a_dif a) 16 ltac:(lia)) as R.
  assert (C : In (a_dif a mod 16) [0; 1; 2; 3; 4; 5; 6; 7; 8; 9; 10; 11; 12; 13; 14; 15]) by (cbn [In]; lia).
  cbn [In] in C.
  destruct C as [K|[K|[K|[K|[K|[K|[K|[K|[K|[K|[K|[K|[K|[K|[K|[K|[]]]]]]]]]]]]]]]]]; rewrite <- K; cbn [Z.eqb Pos.eqb].
  - intros E. cbn in E. apply ok_inj in E. subst d. constructor.
  - apply INT. lia.
  - destruct (vif_date _); [|apply INT; lia]. destruct (tm_total (r_data (obj a)) 2 Hb ltac:(lia)) as (t & -> & Rt & _). cbn [bind]. apply PUT, plain_chars, date_short, in_range_small. assumption.
  - apply INT. lia.
  - destruct (vif_datetime _ _); [apply DT|apply INT]; lia.
  - rewrite float_bits_le by lia. cbn [bind]. intros E. apply ok_inj in E. subst d. unfold good_decoded. cbn [e_str e_real dec_num].
    apply (bounded_le (2 ^ 128)); [discriminate|]. apply bounded_bits. pose proof (le_bounds _ (bytes_firstn 4 _ Hb)) as LB. rewrite (FL 4%nat) in LB by lia. exact LB.
  - destruct (vif_datetime _ _); [apply DT|apply LL]; lia.
  - apply LL. lia.
  - intros E. apply ok_inj in E. subst d. vm_compute. discriminate.
  - apply BCD. lia.
  - apply BCD. lia.
  - apply BCD. lia.
  - apply BCD. lia.
  - rewrite rd_ok by lia. cbn [bind]. assert (Hr : (1 <= r_len (obj a) <= 192)%nat) by (apply P; rewrite PText3.land_0F by apply P; symmetry; exact K).
    destruct (Nat.eqb_spec (r_len (obj a)) 0); [lia|]. destruct (_ <=? _).
    + unfold dec_text. rewrite str_decode_spec by (rewrite ?skipn_length, ?repeat_length; lia). cbn [bind]. intros E. apply ok_inj in E. subst d. unfold good_decoded. cbn [e_str].
      apply c_text_chars. apply bytes_app. split; [apply Forall_rev, bytes_firstn, bytes_skipn; assumption|]. constructor; [unfold is_byte; lia|]. apply bytes_skipn, zeros_bytes.
    + apply HEX; [apply bytes_skipn; assumption|rewrite skipn_length; lia].
  - apply BCD. lia.
  - apply HEX; [assumption|lia].
Qed.

(** ** Units *)
Lemma rows_good : forallb (fun row => ctextb 100 (u_unit row) && ctextb 100 (u_quantity row) && Qle_bool 0 (dround (u_exponent row)) && Qle_bool (dround (u_exponent row)) (inject_Z (10 ^ 12))) vif_table = true.
Proof. vm_compute. reflexivity. Qed.
Lemma find_row_in : forall t c row, find_row t c = Some row -> In row t.
Proof.
  induction t as [|r t IH]; intros c row E; cbn [find_row] in E; [discriminate|].
  destruct (_ <? _); [|discriminate]. destruct (_ =? _); [injection E as ->; left; reflexivity|right; eauto].
Qed.
Lemma correction_bound v0 b x : 0 <= b -> bounded b x -> bounded (2000 * b + 20) (vife_correction v0 x).
Proof.
  intros Hb H. unfold vife_correction. pose proof (Z.mod_pos_bound v0 8 ltac:(lia)) as R8. pose proof (Z.mod_pos_bound v0 4 ltac:(lia)) as R4.
  assert (E8 : Z.land v0 0x07 = v0 mod 8) by (apply (Z.land_ones v0 3); lia). assert (E4 : Z.land v0 0x03 = v0 mod 4) by (apply (Z.land_ones v0 2); lia). rewrite E8, E4.
  assert (PW : forall e, -6 <= e <= 1 -> (0 <= pow10 e)%Q /\ (pow10 e <= inject_Z 10)%Q).
  { intros e He. assert (C : In e [-6; -5; -4; -3; -2; -1; 0; 1]) by (cbn [In]; lia). cbn [In] in C.
    destruct C as [<-|[<-|[<-|[<-|[<-|[<-|[<-|[<-|[]]]]]]]]]; split; vm_compute; discriminate. }
  destruct (MText.between _ _ _).
  { destruct (PW (v0 mod 8 - 6) ltac:(lia)). apply (bounded_le (2 * (b * 10))); [lia|]. apply bounded_mul; try assumption. lia. }
  destruct (MText.between _ _ _).
  { destruct (PW (v0 mod 4 - 3) ltac:(lia)). apply (bounded_le (2 * (b + 10))); [lia|]. apply bounded_add; assumption. }
  destruct (_ =? _).
  { apply (bounded_le (2 * (b * 1000))); [lia|]. apply bounded_mul; [lia|assumption|discriminate|apply Qle_refl]. }
  apply (bounded_le b); [lia|assumption].
Qed.
Lemma unit_good r value u1 x1 q1 : bytes (r_custom r) ->
  mbus_vib_unit_normalize r value = Ok (Some (u1, x1, q1)) -> c_chars u1 /\ c_chars q1 /\ (bounded (2 ^ 129) value -> bounded (10 ^ 60) x1).
Proof.
  intros Hc. unfold mbus_vib_unit_normalize. destruct (rd (r_vife r) 0) as [v0|]; [|discriminate]. cbn [bind].
  assert (PL : forall code u x q, match mbus_vif_unit_normalize code value with (ret, u, v, q) => if ret =? 0 then Some (u, v, q) else None end = Some (u, x, q) ->
    c_chars u /\ (bounded (2 ^ 129) value -> bounded (2 * (2 ^ 129 * 10 ^ 12)) x) /\ c_chars q).
  { intros code u x q. unfold mbus_vif_unit_normalize. destruct (find_row _ _) as [row|] eqn:F; [|discriminate]. cbn [Z.eqb]. intros E. injection E as <- <- <-.
    apply find_row_in in F. pose proof (proj1 (forallb_forall _ _) rows_good row F) as G. cbv beta in G.
    apply andb_true_iff in G. destruct G as [G G4]. apply andb_true_iff in G. destruct G as [G G3]. apply andb_true_iff in G. destruct G as [G1 G2].
    apply ctextb_ok in G1, G2. apply Qle_bool_iff in G3, G4. split; [apply G1|]. split; [|apply G2]. intros Hv. apply bounded_mul; try assumption. discriminate. }
  set (first := if r_vif r =? 0xFD then _ else _). cbv zeta.
  assert (FG : forall u x q, first = Some (u, x, q) -> c_chars u /\ (bounded (2 ^ 129) value -> bounded (2 * (2 ^ 129 * 10 ^ 12)) x) /\ c_chars q).
  { intros u x q. unfold first. destruct (_ =? 0xFD). { destruct (r_nvife r =? 0)%nat; [discriminate|]. apply PL. }
    destruct (_ =? 0xFB). { destruct (r_nvife r =? 0)%nat; [discriminate|]. apply PL. }
    destruct (_ || _); [|apply PL]. intros E. injection E as <- <- <-. split; [apply (ctextb_ok 10); reflexivity|].
    split; [apply bounded_le; discriminate|apply c_text_chars; assumption]. }
  destruct first as [[[u x] q]|]; [|discriminate]. destruct (FG u x q eq_refl) as (F1 & F2 & F3).
  destruct (_ && _); intros E; apply ok_inj in E; injection E as <- <- <-; (split; [assumption|]); (split; [assumption|]); intros Hv; specialize (F2 Hv).
  - set (K := 2 * (2 ^ 129 * 10 ^ 12)) in *. apply (bounded_le (2000 * K + 20)); [vm_compute; discriminate|]. apply correction_bound; [vm_compute; discriminate|exact F2].
  - apply (bounded_le (2 * (2 ^ 129 * 10 ^ 12))); [vm_compute; discriminate|exact F2].
Qed.

(** What a normalised record contains can be shown. *)
Definition good_record (n : nrec) : Prop :=
  Forall plain (n_function n) /\ (length (n_function n) <= 24)%nat /\
  (forall u, n_unit n = Some u -> c_chars u) /\ (forall q, n_quantity n = Some q -> c_chars q) /\
  match n_value n with VNum x => bounded (10 ^ 60) x | VStr s _ => c_chars s end /\
  0 <= n_storage n < 2 ^ 31 /\ -1 <= n_tariff n < 4 ^ 10 /\ -1 <= n_device n < 2 ^ 10.
Lemma parse_good a n lost : wf_rec a -> (length (a_difes a) <= 8)%nat -> storage_number (a_dif a) (a_difes a) < 2 ^ 31 ->
  mbus_parse_variable_record (obj a) = Ok (Some n, lost) -> good_record n.
Proof.
  intros W L S. unfold mbus_parse_variable_record. destruct (address_part a W L S) as (A1 & A2 & A3). rewrite A1, A2, A3. cbn [bind].
  destruct (mbus_variable_value_decode (obj a)) as [d|] eqn:Ed; [|discriminate]. cbn [bind]. change (r_dif (obj a)) with (a_dif a).
  assert (ND : (a_dif a =? 0x0F) || (a_dif a =? 0x1F) = false) by (destruct W as (W1 & W2 & _); lia). rewrite ND.
  destruct (negb _) eqn:Er; [discriminate|]. pose proof (value_good a d W Ed) as G. unfold good_decoded in G.
  destruct (mbus_vib_unit_normalize (obj a) (e_real d)) as [[[[u x] q]|]|] eqn:Eu; cbn [bind]; try discriminate.
  assert (Hc : bytes (r_custom (obj a))) by apply (obj_parsed a W).
  destruct (unit_good _ _ _ _ _ Hc Eu) as (U1 & U2 & U3). intros E. apply ok_inj in E. injection E as <- _.
  unfold good_record. cbn [n_function n_unit n_quantity n_value n_storage n_tariff n_device].
  destruct (function_spec (obj a)) as (F1 & F2 & F3); [apply (obj_bytes a W)|]. rewrite F1.
  split; [assumption|]. split; [assumption|]. split; [intros ? E; injection E as <-; assumption|]. split; [intros ? E; injection E as <-; assumption|].
  split; [destruct (e_str d); [assumption|auto]|]. split; [split; [apply storage_range|assumption]|].
  destruct (a_difes a) as [|d0 ds]; [change (4 ^ 10) with 1048576; change (2 ^ 10) with 1024; lia|].
  pose proof (tariff_range (d0 :: ds) ltac:(lia)). pose proof (subunit_range (d0 :: ds) ltac:(lia)). lia.
Qed.

(** ** Elements *)
Lemma encoded_opt_ok o : (forall s, o = Some s -> c_chars s) -> (length (escape_text (text_of o)) + 6 <= 768)%nat ->
  encoded_opt 768 o = Ok (escape_text (text_of o)) /\ c_chars (text_of o).
Proof.
  destruct o as [s|]; cbn [encoded_opt text_of]; [|intros _ _; split; [reflexivity|constructor]].
  intros H L. split; [apply encoded_ok; auto|auto].
Qed.
Definition norm_text (i : Z) (o : option nrec) (t : list Z) (ns : list node) (nd : node) : Prop :=
  (exists ls, record_lines i o = Ok ls /\ concat ls = t) /\ match o with Some n => norm_nodes n ns | None => ns = [] end /\
  record_node i (-1) None ns nd /\ renders t [nd] /\ (length t <= 1011)%nat /\ nonul t.
Lemma record_wrap i info ns : 0 <= i < 10 ^ 9 -> renders info ns ->
  exists nd, record_node i (-1) None ns nd /\
    let t := (cstr "    <DataRecord id=""" ++ fmt_d i ++ cstr """>" ++ nl) ++ info ++ cstr "    </DataRecord>" ++ nl ++ nl in
    renders t [nd] /\ (length t <= 60 + length info)%nat.
Proof.
  intros Hi R. exists (Elem (cstr "DataRecord") [(cstr "id", fmt_d i)] ns). split.
  - exists (fmt_d i), [(cstr "id", fmt_d i)]. split; [apply decimal_fmt_d|]. split; [reflexivity|]. rewrite app_nil_r. reflexivity.
  - cbv zeta. split.
    + replace ((cstr "    <DataRecord id=""" ++ fmt_d i ++ cstr """>" ++ nl) ++ info ++ cstr "    </DataRecord>" ++ nl ++ nl)
        with (cstr "    " ++ [60] ++ cstr "DataRecord" ++ attrs_text [(cstr "id", fmt_d i)] ++ [62] ++ (nl ++ info ++ cstr "    ") ++ [60; 47] ++ cstr "DataRecord" ++ [62] ++ (nl ++ nl))
        by (unfold attrs_text; cbn [flat_map fst snd]; rewrite ?app_nil_r; do 6 (cbn [app]; rewrite <- ?app_assoc); reflexivity).
      apply rn_elem.
      * apply blanksb_ok. reflexivity.
      * apply nameb_ok. reflexivity.
      * apply Forall_cons; [split; [apply nameb_ok; reflexivity|apply plain_safe, fmt_d_plain]|apply Forall_nil].
      * apply renders_ws; [apply blanksb_ok; reflexivity|]. rewrite <- (app_nil_r ns). apply renders_app; [assumption|]. apply rn_nil, blanksb_ok. reflexivity.
      * apply rn_nil, blanksb_ok. reflexivity.
    + pose proof (fmt_d_digits i 8 ltac:(change (10 ^ Z.of_nat 9) with (10 ^ 9); lia)). lens. lia.
Qed.
Lemma norm_renders n i : good_record n -> (text_size n <= 701)%nat -> 0 <= i < 10 ^ 9 ->
  exists t ns nd, norm_text i (Some n) t ns nd.
Proof.
  intros (G1 & G2 & G3 & G4 & G5 & G6 & G7 & G8) TS Hi. unfold norm_text, record_lines, norm_lines. unfold text_size in TS.
  rewrite (encoded_ok 768 (n_function n)) by (try (apply plain_chars; assumption); rewrite escape_text_plain by assumption; lia). cbn [bind].
  rewrite escape_text_plain by assumption.
  destruct (encoded_opt_ok (n_unit n) G3 ltac:(lia)) as [-> Cu]. destruct (encoded_opt_ok (n_quantity n) G4 ltac:(lia)) as [-> Cq]. cbn [bind].
  set (un := text_of (n_unit n)) in *. set (qu := text_of (n_quantity n)) in *.
  assert (V : exists e v, (match n_value n with VNum x => Ok (print_f x) | VStr s _ => encoded 768 s end) = Ok e /\ safe_text e /\ unescape e = v /\ shows_value (n_value n) v /\
    (length e <= match n_value n with VNum _ => 80 | VStr s _ => length (escape_text s) end)%nat).
  { destruct (n_value n) as [x|s size].
    - destruct (print_f_text x G5) as [P1 P2]. exists (print_f x), (print_f x). split; [reflexivity|]. split; [apply plain_safe; assumption|]. split; [apply plain_unescape; assumption|].
      split; [apply print_f_shows|assumption].
    - exists (escape_text s), (shown s). split; [apply encoded_ok; [assumption|lia]|]. split; [apply escape_safe; assumption|]. split; [apply escape_unescape; assumption|]. split; [reflexivity|lia]. }
  destruct V as (e & v & -> & V1 & V2 & V3 & V4). cbn [bind].
  pose proof (fmt_d_digits (n_storage n) 9 ltac:(change (10 ^ Z.of_nat 10) with 10000000000; change (2 ^ 31) with 2147483648 in G6; lia)) as SL.
  set (vl := match n_value n with VNum _ => 80%nat | VStr s _ => length (escape_text s) end) in *.
  set (st := fmt_d (n_storage n)) in *.
  assert (TD : exists dev td, (if 0 <=? n_tariff n then [cstr "        <Tariff>" ++ fmt_d (n_tariff n) ++ cstr "</Tariff>" ++ nl; cstr "        <Device>" ++ fmt_d (n_device n) ++ cstr "</Device>" ++ nl] else []) = dev /\
    (if n_tariff n <? 0 then td = [] else exists t d, decimal (n_tariff n) t /\ decimal (n_device n) d /\ td = [leaf "Tariff" t; leaf "Device" d]) /\
    (forall rest ns, renders rest ns -> renders (concat dev ++ rest) (td ++ ns)) /\ (length (concat dev) <= if (n_tariff n <? 0)%Z then 0 else 70)%nat).
  { destruct (Z.leb_spec 0 (n_tariff n)), (Z.ltb_spec (n_tariff n) 0); try lia.
    - eexists. exists [leaf "Tariff" (fmt_d (n_tariff n)); leaf "Device" (fmt_d (n_device n))]. split; [reflexivity|]. split; [do 2 eexists; split; [apply decimal_fmt_d|]; split; [apply decimal_fmt_d|reflexivity]|]. split.
      + intros rest ns R. cbn [concat app]. rewrite app_nil_r, <- !app_assoc.
        apply (line_plain (cstr "        ") "Tariff"); [reflexivity|reflexivity|apply fmt_d_plain|].
        apply (line_plain (cstr "        ") "Device"); [reflexivity|reflexivity|apply fmt_d_plain|assumption].
      + pose proof (fmt_d_digits (n_tariff n) 6 ltac:(change (10 ^ Z.of_nat 7) with 10000000; change (4 ^ 10) with 1048576 in G7; lia)).
        pose proof (fmt_d_len (n_device n) 3 ltac:(change (10 ^ Z.of_nat 4) with 10000; change (2 ^ 10) with 1024 in G8; lia)).
        cbn [concat]. rewrite app_nil_r. lens. lia.
    - exists [], []. split; [reflexivity|]. split; [reflexivity|]. split; [auto|cbn; lia]. }
  destruct TD as (dev & td & -> & TD1 & TD2 & TD3).
  set (ns := [leaf "Function" (n_function n); leaf "StorageNumber" st] ++ td ++ [leaf "Unit" (shown un); leaf "Quantity" (shown qu); leaf "Value" v]).
  set (info := cstr "        <Function>" ++ n_function n ++ cstr "</Function>" ++ nl ++ cstr "        <StorageNumber>" ++ st ++ cstr "</StorageNumber>" ++ nl ++
    concat dev ++ cstr "        <Unit>" ++ escape_text un ++ cstr "</Unit>" ++ nl ++ cstr "        <Quantity>" ++ escape_text qu ++ cstr "</Quantity>" ++ nl ++
    cstr "        <Value>" ++ e ++ cstr "</Value>" ++ nl ++ []).
  assert (RI : renders info ns).
  { unfold info, ns. cbn [app].
    apply (line_plain (cstr "        ") "Function"); [reflexivity|reflexivity|assumption|].
    apply (line_plain (cstr "        ") "StorageNumber"); [reflexivity|reflexivity|apply fmt_d_plain|]. apply TD2.
    apply (line_shown (cstr "        ") "Unit"); [reflexivity|reflexivity|assumption|].
    apply (line_shown (cstr "        ") "Quantity"); [reflexivity|reflexivity|assumption|].
    apply (line_leaf (cstr "        ") "Value"); [reflexivity|reflexivity|assumption|assumption|]. apply renders_nil. }
  destruct (record_wrap i info ns Hi RI) as (nd & N1 & N2 & N3). cbv zeta in N2, N3.
  eexists _, ns, nd. split; [eexists; split; [reflexivity|]|].
  { match goal with |- ?l = _ => transitivity ((cstr "    <DataRecord id=""" ++ fmt_d i ++ cstr """>" ++ nl) ++ info ++ cstr "    </DataRecord>" ++ nl ++ nl) end; [|reflexivity].
    unfold info. cbn [concat]. rewrite !concat_app. cbn [concat app]. rewrite <- !app_assoc. cbn [app]. rewrite ?app_nil_r. rewrite <- ?app_assoc. reflexivity. }
  split; [exists st, td, v; split; [apply decimal_fmt_d|]; split; [assumption|]; split; [assumption|reflexivity]|].
  split; [exact N1|]. split; [exact N2|]. split; [|apply (renders_nonul _ _ N2)].
  assert (LI : (length info <= 180 + length (concat dev) + length (escape_text un) + length (escape_text qu) + vl)%nat).
  { unfold info. lens. cbn [length]. lia. }
  destruct (Z.ltb_spec (n_tariff n) 0); lia.
Qed.
Lemma refused_renders i : 0 <= i < 10 ^ 9 -> exists t nd, norm_text i None t [] nd.
Proof.
  intros Hi. destruct (record_wrap i [] [] Hi renders_nil) as (nd & N1 & N2 & N3). cbv zeta in N2, N3.
  eexists _, nd. unfold norm_text. split; [eexists; split; [reflexivity|]|].
  { cbn [concat app]. rewrite app_nil_r. reflexivity. }
  split; [reflexivity|]. split; [exact N1|]. cbn [app] in N2, N3. split; [exact N2|]. split; [cbn [length] in N3; lia|apply (renders_nonul _ _ N2)].
Qed.

(** ** Records of a telegram *)
Lemma entry_norm e i : wf_entry e -> small_norm e -> 0 <= i < 10 ^ 9 ->
  exists o lost t ns nd, mbus_parse_variable_record (entry_obj e) = Ok (o, lost) /\ norm_text i o t ns nd /\ (lost = true -> reserved_unit e = true).
Proof.
  intros W Sm Hi. destruct e as [a|more b]; cbn [entry_obj wf_entry small_norm] in *.
  - destruct Sm as (S1 & S2 & S3). destruct (C60_total a W S1 S2) as (o & lost & E & _ & Lo). exists o, lost.
    assert (RL : lost = true -> reserved_unit (EData a) = true) by (intros H; destruct (Lo H) as [_ [X|X]]; unfold reserved_unit; rewrite X; reflexivity).
    destruct o as [n|].
    + destruct (norm_renders n i (parse_good a n lost W S1 S2 E) (S3 n lost E) Hi) as (t & ns & nd & H). exists t, ns, nd. auto.
    + destruct (refused_renders i Hi) as (t & nd & H). exists t, [], nd. auto.
  - destruct W as [Lb Hb]. destruct (C60_block more b Lb Hb) as (n & size & E & V & F & U & Q & S & T & D). exists (Some n), false.
    assert (HP : Forall plain (hex_text (rev b))) by (apply hex_text_plain, Forall_rev; assumption).
    pose proof (hex_text_len (rev b)) as HL. rewrite rev_length in HL.
    destruct (norm_renders n i) as (t & ns & nd & H).
    + unfold good_record. rewrite V, F, U, Q, S, T, D. split; [apply plainb_all; destruct more; reflexivity|]. split; [destruct more; vm_compute; lia|].
      split; [discriminate|]. split; [discriminate|]. split; [apply plain_chars; assumption|]. lia.
    + unfold text_size. rewrite V, U, Q. cbn [text_of escape_text flat_map length]. fold (escape_text (hex_text (rev b))). rewrite escape_text_plain by assumption. lia.
    + exact Hi.
    + exists t, ns, nd. split; [assumption|]. split; [assumption|discriminate].
Qed.
Lemma lines_ok : forall ls d t, holds d t -> (length t + length (concat ls) < length (b_buf d))%nat ->
  exists d', doc_lines d ls = Ok d' /\ holds d' (t ++ concat ls) /\ length (b_buf d') = length (b_buf d).
Proof.
  induction ls as [|l ls IH]; intros d t H L; cbn [doc_lines concat] in *.
  - exists d. rewrite app_nil_r. auto.
  - rewrite app_length in L. destruct (append_ok d t l H ltac:(lia)) as (d1 & E1 & H1 & L1). rewrite E1. cbn [bind].
    destruct (IH d1 (t ++ l) H1) as (d2 & E2 & H2 & L2). { rewrite app_length. lia. }
    exists d2. rewrite <- app_assoc in H2. split; [assumption|]. split; [assumption|lia].
Qed.
Lemma norm_records_ok (P : entry -> list node -> Prop) : forall es d t i lost,
  Forall wf_entry es -> Forall small_norm es ->
  Forall (fun e => forall o lost ns, mbus_parse_variable_record (entry_obj e) = Ok (o, lost) -> match o with Some n => norm_nodes n ns | None => ns = [] end -> P e ns) es ->
  roomy d t -> 0 <= i -> i + Z.of_nat (length es) < 10 ^ 9 ->
  exists d' txt nds lost', norm_records d (map entry_obj es) i lost = Ok (d', lost') /\ roomy d' (t ++ txt) /\ norm_entries P es i nds /\ renders txt nds /\
    (lost' <= lost + length (filter reserved_unit es))%nat.
Proof.
  induction es as [|e es IH]; intros d t i lost W Sm HP R Hi Hn; cbn [map norm_records].
  - exists d, [], [], lost. rewrite app_nil_r. split; [reflexivity|]. split; [assumption|]. split; [reflexivity|]. split; [apply renders_nil|]. cbn. lia.
  - inversion_clear W as [|? ? W1 W2]. inversion_clear Sm as [|? ? S1 S2]. inversion_clear HP as [|? ? P1 P2]. cbn [length] in Hn.
    destruct (entry_norm e i W1 S1 ltac:(lia)) as (o & lo & x & ns & nd & E & ((ls & El & Ex) & N1 & N2 & N3 & N4 & N5) & Lo). rewrite E. cbn [bind]. rewrite El. cbn [bind].
    destruct R as (R1 & R2 & R3 & R4). destruct (grow_ok d t R1 R2) as (G1 & G2 & G3).
    destruct (lines_ok ls (doc_grow d) t G1) as (d1 & E1 & H1 & L1). { rewrite Ex. lia. } rewrite E1. cbn [bind]. rewrite Ex in H1.
    destruct (IH d1 (t ++ x) (i + 1) (if lo then S lost else lost) W2 S2 P2) as (d2 & txt & nds & lost' & E2 & R5 & NE & RN & LL); try lia.
    { split; [assumption|]. rewrite nonul_app. rewrite app_length. repeat split; try assumption; lia. }
    exists d2, (x ++ txt), (nd :: nds), lost'. split; [exact E2|]. split; [rewrite app_assoc; exact R5|]. split.
    { cbn [norm_entries]. exists nd, ns, nds. split; [reflexivity|]. split; [apply (P1 o lo); assumption|]. auto. }
    split; [apply (renders_app x [nd] txt nds); assumption|].
    cbn [filter]. destruct lo; [rewrite Lo by reflexivity; cbn [length]; lia|]. destruct (reserved_unit e); cbn [length]; lia.
Qed.

Lemma norm_document_ok (P : entry -> list node -> Prop) f h its t fd fd' : var_telegram f h its t -> Forall small_norm (entries its t) ->
  Forall (fun e => forall o lost ns, mbus_parse_variable_record (entry_obj e) = Ok (o, lost) -> match o with Some n => norm_nodes n ns | None => ns = [] end -> P e ns) (entries its t) ->
  mbus_frame_data_parse f fd = Ok (0, fd') ->
  exists text lost, mbus_frame_data_xml_normalized fd' = Ok (Some text, lost) /\ norm_document P h (entries its t) text /\
    (lost <= length (filter reserved_unit (entries its t)))%nat.
Proof.
  intros T Sm HP E. rewrite (telegram_parse f h its t fd T) in E. apply ok_inj in E. injection E as <-.
  destruct (header_renders h (telegram_hbytes f h its t T)) as (x & slave & Hx & Hs & Rx). { apply T. }
  assert (Hcount : Z.of_nat (length (entries its t)) <= 300).
  { destruct T as (Hc & Hl & W & Wt & _). destruct Hc as (_ & _ & _ & _ & Hle). rewrite app_length in Hle.
    unfold entries, enc_body in *. rewrite app_length in *. unfold DATA_LEN in Hle.
    assert (A : (length (flat_map entry_item its) <= length (flat_map enc_item its))%nat).
    { clear. induction its as [|[|a] its IH]; cbn [flat_map entry_item enc_item app length]; [lia|lia|].
      unfold enc_rec. cbn [app length]. rewrite !app_length. lia. }
    assert (B : (length (entry_tail t) <= 1)%nat) by (destruct t as [[]|]; cbn; lia). lia. }
  unfold mbus_frame_data_xml_normalized, mbus_data_variable_xml_normalized. cbn [d_type d_var].
  change (DT_VARIABLE =? DT_FIXED) with false. change (DT_VARIABLE =? DT_VARIABLE) with true. cbv iota.
  unfold dvar_of. cbn [v_header v_records]. destruct (start_ok h x Hx) as (d & E0 & R0). rewrite E0. cbn [bind].
  rewrite <- entries_objs.
  destruct (norm_records_ok P (entries its t) d _ 0 0 ltac:(apply entries_wf; apply T) Sm HP R0 ltac:(lia) ltac:(lia)) as (d1 & txt & nds & lost & E1 & R1 & NE & RN & LL).
  rewrite E1. cbn [bind]. destruct (close_ok d1 _ R1) as (d2 & E2 & T2). rewrite E2. cbn [bind]. rewrite T2.
  eexists _, lost. split; [reflexivity|]. split; [|lia].
  exists (XML_OPEN ++ x ++ txt ++ XML_CLOSE), slave, nds. split; [unfold XML_PI; rewrite <- !app_assoc; reflexivity|]. split; [|auto].
  assert (E : XML_OPEN ++ x ++ txt ++ XML_CLOSE = [] ++ [60] ++ cstr "MBusData" ++ attrs_text [] ++ [62] ++ (([10; 10] ++ x) ++ txt) ++ [60; 47] ++ cstr "MBusData" ++ [62] ++ [10]).
  { rewrite <- !app_assoc. reflexivity. }
  rewrite E. apply rn_elem; [constructor|apply nameb_ok; reflexivity|constructor| |apply rn_nil, blanksb_ok; reflexivity].
  apply (renders_app _ [slave] txt nds); [|assumption]. apply renders_ws; [apply blanksb_ok; reflexivity|assumption].
Qed.
