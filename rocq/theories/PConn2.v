(** Proofs about the timeout of TCP connections and about baud rates. *)
From Coq Require Import QArith Qabs Qround Lqa.
From Verif Require Import CBase PBase MText MDouble PText3 SUnit PDouble MConn SConn.
Local Open Scope Z_scope.

Lemma round_div_exact a b : 0 < b -> round_div (a * b) b = a.
Proof. intros Hb. pose proof (round_div_nearest (a * b) b Hb). nia. Qed.
Lemma dround_exact q m k : 0 <= m < 2 ^ 53 -> 0 <= k -> (q == m # Z.to_pos (2 ^ k))%Q -> (dround q == q)%Q.
Proof.
  intros Hm Hk E. destruct q as [n d]. unfold Qeq in E. cbn [Qnum Qden] in E. assert (K0 : 0 < 2 ^ k) by (apply Z.pow_pos_nonneg; lia). rewrite Z2Pos.id in E by assumption.
  unfold dround. cbn [Qnum Qden]. destruct (Z.eqb_spec (Z.abs n) 0) as [N|N].
  { assert (n = 0) by lia. subst n. reflexivity. }
  assert (Hn : 0 < n) by nia. rewrite Z.abs_eq by lia. replace (Z.sgn n) with 1 by (rewrite Z.sgn_pos; lia).
  pose proof (quot_log2_spec n (Z.pos d) Hn ltac:(lia) _ eq_refl) as QL. set (e := quot_log2 _ _) in *.
  assert (He : e <= 52 - k).
  { destruct (Z.leb_spec 0 e).
    - assert (X : Z.pos d * 2 ^ (e + k) <= Z.pos d * m) by (rewrite Z.pow_add_r by lia; nia).
      assert (2 ^ (e + k) <= m) by nia. assert (2 ^ (e + k) < 2 ^ 53) by lia. apply Z.pow_lt_mono_r_iff in H1; lia.
    - assert (P : 0 < 2 ^ (- e)) by (apply Z.pow_pos_nonneg; lia).
      assert (X : 2 ^ k * Z.pos d <= Z.pos d * m * 2 ^ (- e)) by nia. assert (X' : 2 ^ k <= m * 2 ^ (- e)) by nia.
      assert (X2 : 2 ^ k < 2 ^ (53 - e)). { replace (53 - e) with (53 + - e) by lia. rewrite Z.pow_add_r by lia. nia. }
      apply Z.pow_lt_mono_r_iff in X2; lia. }
  destruct (Z.leb_spec 0 (52 - e)); [|lia].
  assert (D : n * 2 ^ (52 - e) = (m * 2 ^ (52 - e - k)) * Z.pos d).
  { replace (2 ^ (52 - e)) with (2 ^ (52 - e - k) * 2 ^ k) by (rewrite <- Z.pow_add_r by lia; f_equal; lia). nia. }
  rewrite D, round_div_exact by lia. unfold Qeq. cbn [Qnum Qden]. rewrite Z2Pos.id by (apply Z.pow_pos_nonneg; lia). lia.
Qed.

Lemma Qtrunc_floor q : (0 <= q)%Q -> (inject_Z (Qtrunc q) <= q)%Q /\ (q < inject_Z (Qtrunc q) + 1)%Q /\ 0 <= Qtrunc q.
Proof.
  destruct q as [n d]. unfold Qle, Qlt, Qtrunc, inject_Z, Qplus. cbn [Qnum Qden]. intros H. assert (0 <= n) by lia.
  rewrite Z.quot_div_nonneg by lia. pose proof (Z.div_pos n (Z.pos d) ltac:(lia) ltac:(lia)). rewrite ?Pos.mul_1_r. split; [|split]; lia.
Qed.
Lemma inject_lt a b : (inject_Z a < inject_Z b)%Q -> a < b.
Proof. unfold Qlt, inject_Z. cbn. lia. Qed.
Lemma timeout_spec q p : double q -> (0 <= q)%Q -> (q < inject_Z (2 ^ 31))%Q ->
  exists sec usec, mbus_tcp_set_timeout_set (Num q) p = Ok (0, mkP (p_files p) (p_blocks p) (p_next p) (p_handles p) (sec, usec)) /\
    0 <= sec < 2 ^ 31 /\ 0 <= usec <= 999999 /\ (inject_Z sec + inject_Z usec / inject_Z 1000000 <= q + ulp)%Q /\ (q < inject_Z sec + inject_Z (usec + 1) / inject_Z 1000000 + ulp)%Q.
Proof.
  intros (m & k & Hm & Hk & Eq) Q0 Q1. unfold mbus_tcp_set_timeout_set.
  assert (Neg : (Qnum q <? 0) = false) by (destruct q as [n d]; unfold Qle in Q0; cbn in *; lia). rewrite Neg.
  destruct (Qtrunc_floor q Q0) as (T1 & T2 & T3). set (sec := Qtrunc q) in *.
  assert (S1 : sec < 2 ^ 31) by (apply inject_lt; lra). cbn [double_to_int]. fold sec. unfold int_op. replace (CBase.in_int sec) with true by (symmetry; unfold CBase.in_int, INT_MIN, INT_MAX; lia). cbn [bind radd rmul double_to_int].
  set (f := (q + inject_Z (- sec))%Q). assert (Ef : (f == q - inject_Z sec)%Q) by (unfold f; rewrite inject_Z_opp; ring).
  assert (K0 : 0 < 2 ^ k) by (apply Z.pow_pos_nonneg; lia).
  assert (Sm : sec = m / 2 ^ k).
  { unfold sec, Qtrunc. destruct q as [n d]. unfold Qeq in Eq. cbn [Qnum Qden] in *. rewrite Z2Pos.id in Eq by assumption. rewrite Z.quot_div_nonneg by lia.
    rewrite <- (Z.div_mul_cancel_r n (Z.pos d) (2 ^ k)) by lia. rewrite Eq. rewrite (Z.mul_comm (Z.pos d)). apply Z.div_mul_cancel_r; lia. }
  assert (Fm : (f == m mod 2 ^ k # Z.to_pos (2 ^ k))%Q).
  { rewrite Ef, Eq, Sm. unfold Qeq, Qminus, Qplus, Qopp, inject_Z. cbn [Qnum Qden]. rewrite Pos.mul_1_r. rewrite !Z2Pos.id by assumption. rewrite (Z.mod_eq m (2 ^ k)) by lia. ring. }
  pose proof (Z.mod_pos_bound m (2 ^ k) K0) as Mb. pose proof (Z.mod_le m (2 ^ k) ltac:(lia) K0) as Ml.
  pose proof (dround_exact f _ k (conj (proj1 Mb) (Z.le_lt_trans _ _ _ Ml (proj2 Hm))) Hk Fm) as Df.
  assert (F1 : (f <= 1 - ulp)%Q).
  { rewrite Fm. unfold ulp, Qle, Qminus, Qplus, Qopp. cbn [Qnum Qden]. rewrite Pos.mul_1_l. rewrite !Z2Pos.id by lia. change (1 * Z.pos (Z.to_pos (2 ^ 53)) + -1 * 1) with (2 ^ 53 - 1).
    destruct (Z.le_gt_cases k 53) as [L|G].
    - assert (X : 2 ^ 53 = 2 ^ k * 2 ^ (53 - k)) by (rewrite <- Z.pow_add_r by lia; f_equal; lia). assert (0 < 2 ^ (53 - k)) by (apply Z.pow_pos_nonneg; lia). nia.
    - assert (X : 2 ^ k = 2 ^ 53 * 2 ^ (k - 53)) by (rewrite <- Z.pow_add_r by lia; f_equal; lia). assert (2 <= 2 ^ (k - 53)) by (change 2 with (2 ^ 1) at 1; apply Z.pow_le_mono_r; lia).
      change (2 ^ 53) with 9007199254740992 in *. nia. }
  assert (F0 : (0 <= f)%Q) by (rewrite Ef; lra).
  set (g := (dround f * inject_Z 1000000)%Q). assert (Eg : (g == f * inject_Z 1000000)%Q) by (unfold g; rewrite Df; reflexivity).
  pose proof (dround_within g) as W. unfold within in W. assert (G0 : (0 <= g)%Q) by (rewrite Eg; apply Qmult_le_0_compat; [assumption|discriminate]).
  rewrite (Qabs_pos g G0) in W. apply Qabs_diff_Qle_condition in W. set (r := dround g) in *. destruct W as [W1 W2].
  assert (U : ulp = (1 # 9007199254740992)%Q) by reflexivity. rewrite U in *. change (inject_Z 1000000) with (1000000 # 1)%Q in *.
  assert (R0 : (0 <= r)%Q) by lra. assert (R1 : (r < 1000000 # 1)%Q) by lra.
  destruct (Qtrunc_floor r R0) as (V1 & V2 & V3). set (usec := Qtrunc r) in *.
  assert (S2 : usec < 1000000) by (apply inject_lt; change (inject_Z 1000000) with (1000000 # 1)%Q; lra).
  unfold int_op. replace (CBase.in_int usec) with true by (symmetry; unfold CBase.in_int, INT_MIN, INT_MAX; lia). cbn [bind].
  exists sec, usec. split; [reflexivity|]. split; [lia|]. split; [lia|].
  assert (Dv : forall z, (inject_Z z / (1000000 # 1) == inject_Z z * (1 # 1000000))%Q) by (intros z; unfold Qdiv; reflexivity).
  rewrite !Dv. rewrite inject_Z_plus. change (inject_Z 1) with 1%Q.
  set (S := inject_Z sec) in *. set (V := inject_Z usec) in *. split; lra.
Qed.
