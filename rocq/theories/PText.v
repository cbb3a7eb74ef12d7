(** Proofs about number formatting (MText.v against SText.v). *)
From Verif Require Import CBase PBase CStr MFrame MCodec MVar MText SText.

Definition val (base : Z) (ds : list Z) : Z := fold_right (fun d a => d + base * a) 0 ds.

Lemma digits_rev_spec base : 2 <= base -> forall fuel n, 0 <= n < 2 ^ Z.of_nat fuel ->
  (0 < fuel)%nat -> val base (digits_rev fuel base n) = n /\ Forall (fun d => 0 <= d < base) (digits_rev fuel base n).
Proof.
  intros Hb. induction fuel as [|k IH]; intros n Hn Hf; [lia|]. cbn [digits_rev val fold_right].
  pose proof (Z.mod_pos_bound n base ltac:(lia)) as Hm.
  pose proof (Z.div_mod n base ltac:(lia)) as Hd.
  destruct (Z.ltb_spec n base) as [L|L].
  - cbn [fold_right]. split; [rewrite Z.mod_small by lia; lia|]. constructor; [assumption|constructor].
  - assert (Hk : 0 <= n / base < 2 ^ Z.of_nat k).
    { split; [apply Z.div_pos; lia|]. apply Z.div_lt_upper_bound; [lia|].
      replace (Z.of_nat (S k)) with (1 + Z.of_nat k) in Hn by lia. rewrite Z.pow_add_r in Hn by lia.
      assert (0 < 2 ^ Z.of_nat k) by (apply Z.pow_pos_nonneg; lia). clear - Hn H Hb. change (2 ^ 1) with 2 in Hn. nia. }
    assert (0 < k)%nat.
    { destruct k; [|lia]. exfalso. change (2 ^ Z.of_nat 0) with 1 in Hk.
      assert (1 <= n / base) by (apply Z.div_le_lower_bound; lia). lia. }
    destruct (IH (n / base) Hk H) as [I1 I2]. fold (val base (digits_rev k base (n / base))). rewrite I1.
    split; [clear - Hd; lia|]. constructor; assumption.
Qed.

Lemma digits_rev_nonempty base fuel n : (0 < fuel)%nat -> digits_rev fuel base n <> [].
Proof. destruct fuel; [lia|]. cbn. discriminate. Qed.

Lemma digits_rev_len base : 2 <= base -> forall k fuel n, 0 <= n < base ^ Z.of_nat (S k) ->
  (length (digits_rev fuel base n) <= S k)%nat.
Proof.
  intros Hb. induction k as [|k IH]; intros fuel n Hn; (destruct fuel as [|fuel]; [cbn; lia|]); cbn [digits_rev length].
  - change (Z.of_nat 1) with 1 in Hn. rewrite Z.pow_1_r in Hn.
    destruct (Z.ltb_spec n base); [cbn; lia|lia].
  - destruct (Z.ltb_spec n base) as [L|L]; [cbn; lia|].
    assert (Hk : 0 <= n / base < base ^ Z.of_nat (S k)).
    { split; [apply Z.div_pos; lia|]. apply Z.div_lt_upper_bound; [lia|].
      replace (Z.of_nat (S (S k))) with (1 + Z.of_nat (S k)) in Hn by lia.
      rewrite Z.pow_add_r, Z.pow_1_r in Hn by lia. lia. }
    specialize (IH fuel _ Hk). lia.
Qed.

Lemma digits_rev_top base : 2 <= base -> forall fuel n, 0 < n < 2 ^ Z.of_nat fuel ->
  exists l d, digits_rev fuel base n = l ++ [d] /\ 0 < d < base.
Proof.
  intros Hb. induction fuel as [|k IH]; intros n Hn; [change (2 ^ Z.of_nat 0) with 1 in Hn; lia|]. cbn [digits_rev].
  destruct (Z.ltb_spec n base) as [L|L].
  - exists [], (n mod base). split; [reflexivity|]. rewrite Z.mod_small; lia.
  - assert (Hk : 0 < n / base < 2 ^ Z.of_nat k).
    { split; [assert (1 <= n / base) by (apply Z.div_le_lower_bound; lia); lia|]. apply Z.div_lt_upper_bound; [lia|].
      replace (Z.of_nat (S k)) with (1 + Z.of_nat k) in Hn by lia. rewrite Z.pow_add_r in Hn by lia.
      assert (0 < 2 ^ Z.of_nat k) by (apply Z.pow_pos_nonneg; lia). clear - Hn H Hb. change (2 ^ 1) with 2 in Hn. nia. }
    destruct (IH _ Hk) as (l & d & E & H). exists (n mod base :: l), d. rewrite E. split; [reflexivity|assumption].
Qed.

Lemma fuel_ok n : 0 <= n -> 0 <= n < 2 ^ Z.of_nat (S (Z.to_nat (Z.log2 n))).
Proof.
  intros H. split; [assumption|]. rewrite Nat2Z.inj_succ, Z2Nat.id by apply Z.log2_nonneg.
  destruct (Z.eq_dec n 0) as [->|N]; [cbn; lia|]. apply Z.log2_spec. lia.
Qed.

Lemma read_digits_app base a b acc : read_digits base (a ++ b) acc =
  match read_digits base a acc with Some v => read_digits base b v | None => None end.
Proof.
  revert acc. induction a as [|c a IH]; intros acc; [reflexivity|]. cbn [app read_digits].
  destruct (digit_value c); [|reflexivity]. destruct (_ <? _); [apply IH|reflexivity].
Qed.

Definition good_digit (digit : Z -> Z) (base : Z) : Prop := forall d, 0 <= d < base -> digit_value (digit d) = Some d.
Lemma hex_upper_good : good_digit hex_upper 16.
Proof.
  intros d H. unfold hex_upper, digit_value.
  destruct (Z.ltb_spec d 10).
  - replace ((48 <=? 48 + d) && (48 + d <=? 57)) with true by lia. f_equal. lia.
  - replace ((48 <=? 55 + d) && (55 + d <=? 57)) with false by lia.
    replace ((65 <=? 55 + d) && (55 + d <=? 70)) with true by lia. f_equal. lia.
Qed.
Lemma hex_upper_good10 : good_digit hex_upper 10.
Proof. intros d H. apply hex_upper_good. lia. Qed.
Lemma hex_lower_good : good_digit hex_lower 16.
Proof.
  intros d H. unfold hex_lower, digit_value.
  destruct (Z.ltb_spec d 10).
  - replace ((48 <=? 48 + d) && (48 + d <=? 57)) with true by lia. f_equal. lia.
  - replace ((48 <=? 87 + d) && (87 + d <=? 57)) with false by lia.
    replace ((65 <=? 87 + d) && (87 + d <=? 70)) with false by lia.
    replace ((97 <=? 87 + d) && (87 + d <=? 102)) with true by lia. f_equal. lia.
Qed.

Lemma read_rev digit base : good_digit digit base -> forall ds acc, Forall (fun d => 0 <= d < base) ds ->
  read_digits base (map digit (rev ds)) acc = Some (acc * base ^ Z.of_nat (length ds) + val base ds).
Proof.
  intros G ds. induction ds as [|d ds IH]; intros acc H.
  - cbn. rewrite Z.mul_1_r, Z.add_0_r. reflexivity.
  - inversion_clear H as [|? ? H1 H2]. cbn [rev]. rewrite map_app, read_digits_app, IH by assumption.
    cbn [map read_digits]. rewrite (G d H1). destruct (Z.ltb_spec d base); [|lia].
    f_equal. cbn [length val fold_right]. rewrite Nat2Z.inj_succ, Z.pow_succ_r by lia.
    fold (val base ds). set (p := base ^ Z.of_nat (length ds)). set (v := val base ds). ring.
Qed.

Lemma fmt_digits_nonempty digit base n : fmt_digits digit base n <> [].
Proof.
  unfold fmt_digits. intros H. apply map_eq_nil in H.
  assert (E : rev (rev (digits_rev (S (Z.to_nat (Z.log2 n))) base n)) = []) by (rewrite H; reflexivity).
  rewrite rev_involutive in E. exact (digits_rev_nonempty base (S (Z.to_nat (Z.log2 n))) n ltac:(lia) E).
Qed.

Lemma fmt_digits_read digit base n : 2 <= base -> good_digit digit base -> 0 <= n ->
  read_nat base (fmt_digits digit base n) = Some n.
Proof.
  intros Hb G Hn. unfold read_nat. pose proof (fmt_digits_nonempty digit base n) as N.
  assert (E : read_digits base (fmt_digits digit base n) 0 = Some n).
  { unfold fmt_digits. destruct (digits_rev_spec base Hb _ n (fuel_ok n Hn) ltac:(lia)) as [V F].
    rewrite read_rev by assumption. rewrite V. reflexivity. }
  destruct (fmt_digits digit base n); [congruence|exact E].
Qed.

Lemma fmt_digits_len digit base n k : 2 <= base -> 0 <= n < base ^ Z.of_nat (S k) ->
  (1 <= length (fmt_digits digit base n) <= S k)%nat.
Proof.
  intros Hb H. pose proof (fmt_digits_nonempty digit base n) as N. split.
  - destruct (fmt_digits digit base n); [congruence|cbn; lia].
  - unfold fmt_digits. rewrite map_length, rev_length. apply digits_rev_len; assumption.
Qed.

Lemma fmt_digits_chars digit base n : 2 <= base -> 0 <= n ->
  Forall (fun c => exists d, 0 <= d < base /\ c = digit d) (fmt_digits digit base n).
Proof.
  intros Hb Hn. unfold fmt_digits. destruct (digits_rev_spec base Hb _ n (fuel_ok n Hn) ltac:(lia)) as [_ F].
  apply Forall_forall. intros c Hc. apply in_map_iff in Hc. destruct Hc as (d & <- & Hd).
  rewrite <- in_rev in Hd. rewrite Forall_forall in F. exists d. split; [apply F; assumption|reflexivity].
Qed.

(** Decimal digits. *)
Definition dec_char (c : Z) : Prop := 48 <= c <= 57.
Lemma fmt_u_chars n : 0 <= n -> Forall dec_char (fmt_u n).
Proof.
  intros H. eapply Forall_impl; [|apply (fmt_digits_chars hex_upper 10 n ltac:(lia) H)].
  intros c (d & Hd & ->). unfold dec_char, hex_upper. destruct (Z.ltb_spec d 10); lia.
Qed.
Lemma fmt_u_len n k : 0 <= n < 10 ^ Z.of_nat (S k) -> (1 <= length (fmt_u n) <= S k)%nat.
Proof. intros H. apply fmt_digits_len; [lia|assumption]. Qed.
Lemma fmt_u_read n : 0 <= n -> read_nat 10 (fmt_u n) = Some n.
Proof. intros H. apply fmt_digits_read; [lia|apply hex_upper_good10|assumption]. Qed.

Lemma read_int_pos l n : Forall dec_char l -> read_nat 10 l = Some n -> read_int l = Some n.
Proof.
  intros H E. destruct l as [|c l]; [discriminate|]. inversion_clear H as [|? ? H1 _]. unfold dec_char in H1.
  unfold read_int. destruct c as [|p|]; try lia. 
  destruct (Pos.eq_dec p 45) as [->|N]; [lia|].
  assert (X : forall (A : Type) (x y : A), match Z.pos p with 45 => x | _ => y end = y).
  { intros A x y. do 6 (destruct p as [p|p|]; try reflexivity); exfalso; apply N; reflexivity. }
  rewrite X. assumption.
Qed.

Lemma fmt_d_read z : read_int (fmt_d z) = Some z.
Proof.
  unfold fmt_d. destruct (Z.ltb_spec z 0) as [L|L].
  - cbn [read_int]. rewrite fmt_u_read by lia. f_equal. lia.
  - apply read_int_pos; [apply fmt_u_chars; lia|apply fmt_u_read; lia].
Qed.

Lemma fmt_u_canonical n : 0 <= n -> canonical (fmt_u n).
Proof.
  intros Hn. destruct (Z.eq_dec n 0) as [->|N]; [cbn; exact I|].
  unfold fmt_u, fmt_digits.
  pose proof (fuel_ok n Hn) as F.
  destruct (digits_rev_top 10 ltac:(lia) _ n ltac:(split; [lia|exact (proj2 F)])) as (l & d & E & Hd).
  rewrite E, rev_app_distr. cbn [rev app map]. unfold canonical, hex_upper. destruct (Z.ltb_spec d 10); [|lia].
  assert (48 + d <> 48) by lia. destruct (48 + d) as [|p|] eqn:Ed; try lia.
  do 6 (destruct p as [p|p|]; try exact I); lia.
Qed.
Lemma fmt_d_canonical z : canonical (fmt_d z) /\ (z < 0 -> canonical (tl (fmt_d z))) /\ (0 <= z -> nth 0 (fmt_d z) 0 <> 45).
Proof.
  unfold fmt_d. destruct (Z.ltb_spec z 0) as [L|L].
  - split; [exact I|]. split; [|lia]. intros _. apply fmt_u_canonical. lia.
  - split; [apply fmt_u_canonical; lia|]. split; [lia|]. intros _. pose proof (fmt_u_chars z ltac:(lia)) as C.
    destruct (fmt_u z) as [|c l]; [discriminate|]. inversion C as [|? ? X _]; subst. cbn [nth]. unfold dec_char in X. lia.
Qed.

(** Characters of a signed number. *)
Definition num_char (c : Z) : Prop := 48 <= c <= 57 \/ c = 45.
Lemma fmt_d_chars z : Forall num_char (fmt_d z).
Proof.
  unfold fmt_d. destruct (Z.ltb_spec z 0) as [L|L].
  - constructor; [right; reflexivity|]. eapply Forall_impl; [|apply fmt_u_chars; lia]. intros c H. left. exact H.
  - eapply Forall_impl; [|apply fmt_u_chars; lia]. intros c H. left. exact H.
Qed.
Lemma fmt_d_len z k : Z.abs z < 10 ^ Z.of_nat (S k) -> (1 <= length (fmt_d z) <= S (S k))%nat.
Proof.
  intros H. unfold fmt_d. destruct (Z.ltb_spec z 0) as [L|L].
  - pose proof (fmt_u_len (- z) k ltac:(lia)). cbn [length]. lia.
  - pose proof (fmt_u_len z k ltac:(lia)). lia.
Qed.

(** Hexadecimal. *)
Definition hex_char (c : Z) : Prop := 48 <= c <= 57 \/ 65 <= c <= 70 \/ 97 <= c <= 102.
Lemma fmt_X_chars n : 0 <= n -> Forall hex_char (fmt_X n).
Proof.
  intros H. eapply Forall_impl; [|apply (fmt_digits_chars hex_upper 16 n ltac:(lia) H)].
  intros c (d & Hd & ->). unfold hex_char, hex_upper. destruct (Z.ltb_spec d 10); lia.
Qed.
Lemma fmt_x_chars n : 0 <= n -> Forall hex_char (fmt_x n).
Proof.
  intros H. eapply Forall_impl; [|apply (fmt_digits_chars hex_lower 16 n ltac:(lia) H)].
  intros c (d & Hd & ->). unfold hex_char, hex_lower. destruct (Z.ltb_spec d 10); lia.
Qed.
Lemma fmt_X_len n k : 0 <= n < 16 ^ Z.of_nat (S k) -> (1 <= length (fmt_X n) <= S k)%nat.
Proof. intros H. apply fmt_digits_len; [lia|assumption]. Qed.
Lemma fmt_x_len n k : 0 <= n < 16 ^ Z.of_nat (S k) -> (1 <= length (fmt_x n) <= S k)%nat.
Proof. intros H. apply fmt_digits_len; [lia|assumption]. Qed.
Lemma fmt_X_read n : 0 <= n -> read_nat 16 (fmt_X n) = Some n.
Proof. intros H. apply fmt_digits_read; [lia|apply hex_upper_good|assumption]. Qed.
Lemma fmt_X_capitals n : 0 <= n -> capitals (fmt_X n).
Proof.
  intros H. eapply Forall_impl; [|apply (fmt_digits_chars hex_upper 16 n ltac:(lia) H)].
  intros c (d & Hd & ->). unfold hex_upper. destruct (Z.ltb_spec d 10); lia.
Qed.
Lemma fmt_X_canonical n : 0 <= n -> canonical (fmt_X n).
Proof.
  intros Hn. destruct (Z.eq_dec n 0) as [->|N]; [cbn; exact I|].
  unfold fmt_X, fmt_digits.
  pose proof (fuel_ok n Hn) as F.
  destruct (digits_rev_top 16 ltac:(lia) _ n ltac:(split; [lia|exact (proj2 F)])) as (l & d & E & Hd).
  rewrite E, rev_app_distr. cbn [rev app map]. unfold canonical.
  assert (H : hex_upper d <> 48) by (unfold hex_upper; destruct (Z.ltb_spec d 10); lia).
  destruct (hex_upper d) as [|p|] eqn:Ed; try exact I.
  do 6 (destruct p as [p|p|]; try exact I); lia.
Qed.
Lemma hexadecimal_fmt_X n : 0 <= n -> hexadecimal n (fmt_X n).
Proof. intros H. split; [apply fmt_X_read; assumption|]. split; [apply fmt_X_canonical; assumption|apply fmt_X_capitals; assumption]. Qed.

(** Zero padding. *)
Lemma zpad_len w l : length (zpad w l) = Nat.max w (length l).
Proof. unfold zpad. rewrite app_length, repeat_length. lia. Qed.
Lemma zpad_chars (P : Z -> Prop) w l : P 48 -> Forall P l -> Forall P (zpad w l).
Proof.
  intros H48 H. unfold zpad. apply Forall_app. split; [|assumption].
  apply Forall_forall. intros x Hx. apply repeat_spec in Hx. subst. assumption.
Qed.
Lemma read_zeros base k acc : 2 <= base -> acc = 0 -> read_digits base (repeat 48 k) acc = Some 0.
Proof.
  intros Hb ->. induction k as [|k IH]; [reflexivity|]. cbn [repeat read_digits].
  change (digit_value 48) with (Some 0). cbv iota.
  replace (0 <? base) with true by lia. exact IH.
Qed.
Lemma zpad_read base w l n : 2 <= base -> read_nat base l = Some n -> read_nat base (zpad w l) = Some n.
Proof.
  intros Hb H. unfold zpad. destruct l as [|c l]; [discriminate|].
  assert (E : read_digits base (repeat 48 (w - length (c :: l)) ++ c :: l) 0 = Some n).
  { rewrite read_digits_app, read_zeros by lia. exact H. }
  unfold read_nat. destruct (repeat 48 (w - length (c :: l)) ++ c :: l) eqn:Ez; [|exact E].
  apply app_eq_nil in Ez. destruct Ez. discriminate.
Qed.

Lemma fmt_02d_width z : 0 <= z < 100 -> fixed_width 2 z (fmt_02d z).
Proof.
  intros H. unfold fmt_02d, fmt_d. destruct (Z.ltb_spec z 0); [lia|].
  pose proof (fmt_u_len z 1 ltac:(change (10 ^ Z.of_nat 2) with 100; lia)). split.
  - rewrite zpad_len. lia.
  - apply zpad_read; [lia|apply fmt_u_read; lia].
Qed.
Lemma fmt_04d_width z : 0 <= z < 10000 -> fixed_width 4 z (fmt_04d z).
Proof.
  intros H. unfold fmt_04d, fmt_d. destruct (Z.ltb_spec z 0); [lia|].
  pose proof (fmt_u_len z 3 ltac:(change (10 ^ Z.of_nat 4) with 10000; lia)). split.
  - rewrite zpad_len. lia.
  - apply zpad_read; [lia|apply fmt_u_read; lia].
Qed.
