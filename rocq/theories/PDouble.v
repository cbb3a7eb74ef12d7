(** Proofs about the rounding of doubles. *)
From Coq Require Import QArith Qabs Qround Lqa.
From Verif Require Import CBase PBase MText MDouble SUnit PText3.
Local Open Scope Z_scope.

Lemma quot_log2_spec n d : 0 < n -> 0 < d -> forall e, e = quot_log2 n d ->
  if 0 <=? e then d * 2 ^ e <= n else d <= n * 2 ^ (- e).
Proof.
  intros Hn Hd e ->. unfold quot_log2. set (a := Z.log2 n). set (b := Z.log2 d).
  destruct (if 0 <=? a - b then _ else _) eqn:E.
  - destruct (0 <=? a - b); lia.
  - pose proof (Z.log2_spec n Hn) as [N1 N2]. pose proof (Z.log2_spec d Hd) as [D1 D2]. fold a in N1, N2. fold b in D1, D2.
    pose proof (Z.log2_nonneg n) as A0. pose proof (Z.log2_nonneg d) as B0. fold a in A0. fold b in B0.
    rewrite <- Z.add_1_r in N2, D2. clear E.
    destruct (Z.leb_spec 0 (a - b - 1)) as [L|G].
    + assert (X : 2 ^ (b + 1) * 2 ^ (a - b - 1) = 2 ^ a) by (rewrite <- Z.pow_add_r by lia; f_equal; lia).
      assert (P0 : 0 < 2 ^ (a - b - 1)) by (apply Z.pow_pos_nonneg; lia). nia.
    + assert (X : 2 ^ a * 2 ^ (- (a - b - 1)) = 2 ^ (b + 1)) by (rewrite <- Z.pow_add_r by lia; f_equal; lia).
      assert (P0 : 0 < 2 ^ (- (a - b - 1))) by (apply Z.pow_pos_nonneg; lia). nia.
Qed.

(** Relative error. *)
Definition within (e a b : Q) : Prop := (Qabs (b - a) <= e * Qabs a)%Q.
Definition ulp : Q := 1 # Z.to_pos (2 ^ 53).
Lemma frac_error m n d k : 0 < d -> 0 < n -> 0 < k -> 2 ^ 52 * d <= n * k -> 2 * Z.abs (m * d - n * k) <= d ->
  2 ^ 53 * Z.abs (m * d - n * k) <= n * k.
Proof. intros. change (2 ^ 53) with (2 * 2 ^ 52). nia. Qed.

Lemma dround_within q : within ulp q (dround q).
Proof.
  unfold within, dround. destruct q as [n d]. cbn [Qnum Qden]. destruct (Z.eqb_spec (Z.abs n) 0) as [E|N].
  { assert (n = 0) by lia. subst n. unfold Qle, Qabs, Qminus, Qplus, Qopp, Qmult, ulp. cbn. lia. }
  assert (Hn : 0 < Z.abs n) by lia.
  pose proof (quot_log2_spec (Z.abs n) (Z.pos d) Hn ltac:(lia) _ eq_refl) as QL. set (e := quot_log2 _ _) in *.
  destruct (Z.leb_spec 0 (52 - e)) as [L|G].
  - set (K := 2 ^ (52 - e)). assert (K0 : 0 < K) by (apply Z.pow_pos_nonneg; lia).
    pose proof (round_div_nearest (Z.abs n * K) (Z.pos d) ltac:(lia)) as R. set (m := round_div _ _) in *.
    assert (B : 2 ^ 52 * Z.pos d <= Z.abs n * K).
    { destruct (Z.leb_spec 0 e).
      - assert (X : 2 ^ e * K = 2 ^ 52) by (unfold K; rewrite <- Z.pow_add_r by lia; f_equal; lia). nia.
      - assert (X : 2 ^ 52 * 2 ^ (- e) = K) by (unfold K; rewrite <- Z.pow_add_r by lia; f_equal; lia). assert (0 < 2 ^ 52) by lia. nia. }
    pose proof (frac_error m (Z.abs n) (Z.pos d) K ltac:(lia) Hn K0 B R) as F.
    unfold Qle, Qabs, Qminus, Qplus, Qopp, Qmult, ulp. cbn [Qnum Qden]. rewrite !Pos2Z.inj_mul, !Z2Pos.id by lia. rewrite Z.mul_1_l.
    assert (S1 : Z.abs (Z.sgn n * m * Z.pos d + - n * K) = Z.abs (m * Z.pos d - Z.abs n * K)).
    { destruct (Z.sgn_spec n) as [[? ->]|[[? ->]|[? ->]]]; lia. }
    rewrite S1. set (A := Z.abs (m * Z.pos d - Z.abs n * K)) in *. change (2 ^ 53) with 9007199254740992 in *. nia.
  - set (K := 2 ^ (- (52 - e))). assert (K0 : 0 < K) by (apply Z.pow_pos_nonneg; lia).
    pose proof (round_div_nearest (Z.abs n) (Z.pos d * K) ltac:(lia)) as R. set (m := round_div _ _) in *.
    assert (B : 2 ^ 52 * (Z.pos d * K) <= Z.abs n * 1).
    { destruct (Z.leb_spec 0 e); [|lia].
      assert (X : 2 ^ 52 * K = 2 ^ e) by (unfold K; rewrite <- Z.pow_add_r by lia; f_equal; lia). nia. }
    pose proof (frac_error m (Z.abs n) (Z.pos d * K) 1 ltac:(lia) Hn ltac:(lia) B ltac:(lia)) as F.
    unfold Qle, Qabs, Qminus, Qplus, Qopp, Qmult, ulp, inject_Z. cbn [Qnum Qden]. rewrite !Pos2Z.inj_mul, !Z2Pos.id by lia. rewrite Z.mul_1_l.
    assert (S1 : Z.abs (Z.sgn n * (m * K) * Z.pos d + - n * 1) = Z.abs (m * (Z.pos d * K) - Z.abs n * 1)).
    { destruct (Z.sgn_spec n) as [[? ->]|[[? ->]|[? ->]]]; lia. }
    rewrite S1. set (A := Z.abs (m * (Z.pos d * K) - Z.abs n * 1)) in *. change (2 ^ 53) with 9007199254740992 in *. nia.
Qed.

Lemma within_refl e a : (0 <= e)%Q -> within e a a.
Proof. intros He. unfold within. setoid_replace (a - a)%Q with 0%Q by ring. change (Qabs 0) with 0%Q. apply Qmult_le_0_compat; [assumption|apply Qabs_nonneg]. Qed.
Lemma within_weaken e e' a b : (e <= e')%Q -> within e a b -> within e' a b.
Proof. unfold within. intros He H. eapply Qle_trans; [exact H|]. apply Qmult_le_compat_r; [assumption|apply Qabs_nonneg]. Qed.
Lemma within_eq e a a' b : (a == a')%Q -> within e a b -> within e a' b.
Proof. unfold within. intros E H. rewrite <- E. assumption. Qed.
Lemma within_trans e1 e2 e3 a b c : (0 <= e1)%Q -> (0 <= e2)%Q -> (e1 + e2 + e1 * e2 <= e3)%Q -> within e1 a b -> within e2 b c -> within e3 a c.
Proof.
  unfold within. intros P1 P2 He H1 H2. setoid_replace (c - a)%Q with ((c - b) + (b - a))%Q by ring.
  eapply Qle_trans; [apply Qabs_triangle|].
  assert (B : (Qabs b <= (1 + e1) * Qabs a)%Q).
  { setoid_replace b with ((b - a) + a)%Q by ring. eapply Qle_trans; [apply Qabs_triangle|]. lra. }
  pose proof (Qabs_nonneg a) as A. assert (X : (e2 * Qabs b <= e2 * ((1 + e1) * Qabs a))%Q) by (rewrite !(Qmult_comm e2); apply Qmult_le_compat_r; assumption).
  assert (Y : ((e1 + e2 + e1 * e2) * Qabs a <= e3 * Qabs a)%Q) by (apply Qmult_le_compat_r; assumption).
  nra.
Qed.
Lemma within_mul_l e a b f : within e a b -> within e (a * f) (b * f).
Proof.
  unfold within. intros H. setoid_replace (b * f - a * f)%Q with ((b - a) * f)%Q by ring. rewrite !Qabs_Qmult.
  rewrite Qmult_assoc. apply Qmult_le_compat_r; [assumption|apply Qabs_nonneg].
Qed.
Lemma within_mul_r e a f g : within e f g -> within e (a * f) (a * g).
Proof. intros H. unfold within. rewrite (Qmult_comm a f), (Qmult_comm a g). apply within_mul_l. assumption. Qed.

(** Errors in units of 2^-55. *)
Definition err (n : positive) : Q := Z.pos n # 36028797018963968.
Lemma err_ulp : ulp = (1 # 9007199254740992)%Q. Proof. reflexivity. Qed.
Lemma err_step n m a b c : (n <= 40)%positive -> (n + 5 <= m)%positive -> within (err n) a b -> within ulp b c -> within (err m) a c.
Proof.
  intros Hn Hm. apply within_trans; [discriminate|discriminate|]. rewrite err_ulp. unfold err, Qle, Qplus, Qmult. cbn [Qnum Qden].
  rewrite !Pos2Z.inj_mul. nia.
Qed.
Lemma err_round n m a b : (n <= 40)%positive -> (n + 5 <= m)%positive -> within (err n) a b -> within (err m) a (dround b).
Proof. intros Hn Hm H. apply (err_step n m a b); try assumption. apply dround_within. Qed.
Lemma err_scale n m a b f : (n <= 35)%positive -> (n + 5 <= m)%positive -> within (err n) a b -> within (err m) (a * f) (dround (b * f)).
Proof. intros Hn Hm H. apply (err_round n); try lia. apply within_mul_l. assumption. Qed.
Lemma err_mul n m a b f : (n <= 30)%positive -> (n + 10 <= m)%positive -> within (err n) a b -> within (err m) (a * f) (dround (b * dround f)).
Proof.
  intros Hn Hm H. apply (err_round (n + 5)); try lia. apply (err_step n (n + 5) (a * f) (b * f)); try lia.
  - apply within_mul_l. assumption.
  - apply within_mul_r, dround_within.
Qed.
Lemma err_accurate n p y : (n <= 32)%positive -> within (err n) p y -> accurate p 0 y.
Proof.
  intros Hn H. unfold accurate. setoid_replace (y - (p + 0))%Q with (y - p)%Q by ring. unfold within in H.
  eapply Qle_trans; [exact H|]. change (Qabs 0) with 0%Q. rewrite Qplus_0_r, Qmult_comm. rewrite !(Qmult_comm (Qabs p)). apply Qmult_le_compat_r; [|apply Qabs_nonneg].
  unfold err, Qle. cbn [Qnum Qden]. lia.
Qed.
Lemma err_add p b off : within (err 24) p b -> accurate p off (dround (b + dround off)).
Proof.
  intros H. pose proof (dround_within off) as H1. pose proof (dround_within (b + dround off)) as H2. unfold within, accurate in *.
  set (o := dround off) in *. set (y := dround (b + o)) in *. rewrite err_ulp in *.
  setoid_replace (y - (p + off))%Q with ((y - (b + o)) + ((b - p) + (o - off)))%Q by ring.
  assert (T1 := Qabs_triangle (y - (b + o)) ((b - p) + (o - off))). assert (T2 := Qabs_triangle (b - p) (o - off)).
  assert (T3 : (Qabs (b + o) <= Qabs (b - p) + Qabs (o - off) + Qabs p + Qabs off)%Q).
  { setoid_replace (b + o)%Q with ((b - p) + (o - off) + p + off)%Q by ring.
    eapply Qle_trans; [apply Qabs_triangle|]. eapply Qplus_le_compat; [|apply Qle_refl]. eapply Qle_trans; [apply Qabs_triangle|].
    eapply Qplus_le_compat; [|apply Qle_refl]. apply Qabs_triangle. }
  unfold err in H. pose proof (Qabs_nonneg p). pose proof (Qabs_nonneg off). lra.
Qed.
Lemma accurate_eq p p' off off' y : (p == p')%Q -> (off == off')%Q -> accurate p off y -> accurate p' off' y.
Proof. unfold accurate. intros E1 E2. rewrite E1, E2. auto. Qed.

(** A double near an exact number. *)
Definition near (n : positive) (x y : real) : Prop :=
  match x, y with
  | Num q, Num r => within (err n) q r
  | NonFinite s m, NonFinite s' m' => m = m' /\ (m = false -> s = s')
  | _, _ => False
  end.
Lemma near_refl n x : near n x x.
Proof. destruct x; cbn; [apply within_refl; discriminate|auto]. Qed.
Lemma near_of z : near 4 (Num (inject_Z z)) (real_of z).
Proof. cbn. change (err 4) with ulp || idtac. apply (within_weaken ulp); [discriminate|apply dround_within]. Qed.
Lemma near_weaken n m x y : (n <= m)%positive -> near n x y -> near m x y.
Proof. intros L. destruct x, y; cbn; auto. apply within_weaken. unfold err, Qle. cbn [Qnum Qden]. lia. Qed.
Lemma near_scales n x y f : (n <= 20)%positive -> near n x y -> scales x f 0 (rmul y (dround f)).
Proof. intros Hn. destruct x, y; cbn; auto. intros H. apply (err_accurate (n + 10)); [lia|]. apply (err_mul n); try lia. assumption. Qed.
