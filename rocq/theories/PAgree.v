(** Number texts are unique. *)
From Coq Require Import String.
From Coq Require Import List.
From Verif Require Import CBase PBase CStr MFrame MCodec MVar MText SText SCodec SVar SXml.
From Verif Require Import PText PDoc.
Local Open Scope Z_scope.

Lemma digit_capital c c' d : digit_value c = Some d -> digit_value c' = Some d -> ~ (97 <= c <= 102) -> ~ (97 <= c' <= 102) -> c = c'.
Proof.
  unfold digit_value. intros A B.
  destruct (Z.leb_spec 48 c), (Z.leb_spec c 57); cbn [andb] in A; destruct (Z.leb_spec 65 c), (Z.leb_spec c 70); cbn [andb] in A;
  destruct (Z.leb_spec 97 c), (Z.leb_spec c 102); cbn [andb] in A; try discriminate A; try lia;
  destruct (Z.leb_spec 48 c'), (Z.leb_spec c' 57); cbn [andb] in B; destruct (Z.leb_spec 65 c'), (Z.leb_spec c' 70); cbn [andb] in B;
  destruct (Z.leb_spec 97 c'), (Z.leb_spec c' 102); cbn [andb] in B; try discriminate B; try lia;
  injection A as <-; injection B as B; lia.
Qed.
Lemma digit_pos c d : digit_value c = Some d -> 0 <= d /\ (d = 0 -> c = 48).
Proof.
  unfold digit_value. intros A.
  destruct (Z.leb_spec 48 c), (Z.leb_spec c 57); cbn [andb] in A; destruct (Z.leb_spec 65 c), (Z.leb_spec c 70); cbn [andb] in A;
  destruct (Z.leb_spec 97 c), (Z.leb_spec c 102); cbn [andb] in A; try discriminate A; injection A as <-; lia.
Qed.
Section Base.
  Variable base : Z.
  Hypothesis Hbase : 2 <= base.
  Lemma digits_range : forall l acc n, read_digits base l acc = Some n -> acc * base ^ Z.of_nat (length l) <= n < (acc + 1) * base ^ Z.of_nat (length l).
  Proof.
    induction l as [|c l IH]; intros acc n E; [injection E as ->; cbn; lia|].
    cbn [read_digits] in E. destruct (digit_value c) as [d|] eqn:Ed; [|discriminate]. destruct (Z.ltb_spec d base); [|discriminate].
    apply digit_pos in Ed. apply IH in E. change (length (c :: l)) with (S (length l)). rewrite Nat2Z.inj_succ, Z.pow_succ_r by lia.
    pose proof (Z.pow_pos_nonneg base (Z.of_nat (length l)) ltac:(lia) ltac:(lia)). nia.
  Qed.
  Lemma digits_unique : forall l l' acc n, capitals l -> capitals l' -> length l = length l' ->
    read_digits base l acc = Some n -> read_digits base l' acc = Some n -> l = l'.
  Proof.
    induction l as [|c l IH]; intros [|c' l'] acc n C C' L E E'; try discriminate; [reflexivity|]. injection L as L.
    inversion C as [|? ? X C1]; inversion C' as [|? ? X' C1']; subst.
    cbn [read_digits] in E, E'. destruct (digit_value c) as [d|] eqn:Ed; [|discriminate]. destruct (Z.ltb_spec d base); [|discriminate].
    destruct (digit_value c') as [d'|] eqn:Ed'; [|discriminate]. destruct (Z.ltb_spec d' base); [|discriminate].
    pose proof (digits_range _ _ _ E) as R. pose proof (digits_range _ _ _ E') as R'. rewrite <- L in R'.
    pose proof (Z.pow_pos_nonneg base (Z.of_nat (length l)) ltac:(lia) ltac:(lia)).
    assert (d = d') by nia. subst d'. rewrite (digit_capital c c' d Ed Ed' X X'). f_equal. eapply IH; eassumption.
  Qed.
  Lemma longer : forall l l' n, canonical l' -> read_nat base l = Some n -> read_nat base l' = Some n -> ~ (length l < length l')%nat.
  Proof.
    intros l l' n C E E' L. destruct l as [|x l]; [discriminate|]. destruct l' as [|c l']; [discriminate|]. unfold read_nat in E, E'.
    pose proof (digits_range _ _ _ E) as R. cbn [read_digits] in E'. destruct (digit_value c) as [d|] eqn:Ed; [|discriminate]. destruct (Z.ltb_spec d base); [|discriminate].
    apply digit_pos in Ed. destruct Ed as [D0 D1]. pose proof (digits_range _ _ _ E') as R'.
    assert (d <> 0). { intros Z0. specialize (D1 Z0). subst c. destruct l'; [cbn in L; lia|]. exact C. }
    cbn [length] in L. assert (P : base ^ Z.of_nat (length (x :: l)) <= base ^ Z.of_nat (length l')) by (apply Z.pow_le_mono_r; cbn [length]; lia).
    pose proof (Z.pow_pos_nonneg base (Z.of_nat (length l')) ltac:(lia) ltac:(lia)). nia.
  Qed.
  Lemma nat_unique l l' n : canonical l -> canonical l' -> capitals l -> capitals l' -> read_nat base l = Some n -> read_nat base l' = Some n -> l = l'.
  Proof.
    intros C C' K K' E E'. pose proof (longer l l' n C' E E'). pose proof (longer l' l n C E' E).
    destruct l as [|x l]; [discriminate|]. destruct l' as [|c l']; [discriminate|]. eapply digits_unique; try eassumption. lia.
  Qed.
End Base.
Lemma digits10 : forall l acc n, read_digits 10 l acc = Some n -> capitals l.
Proof.
  induction l as [|c l IH]; intros acc n E; [constructor|]. cbn [read_digits] in E. destruct (digit_value c) as [d|] eqn:Ed; [|discriminate].
  destruct (Z.ltb_spec d 10); [|discriminate]. constructor; [|eapply IH; eassumption]. intros X. unfold digit_value in Ed.
  destruct (Z.leb_spec 48 c), (Z.leb_spec c 57); cbn [andb] in Ed; destruct (Z.leb_spec 65 c), (Z.leb_spec c 70); cbn [andb] in Ed;
  destruct (Z.leb_spec 97 c), (Z.leb_spec c 102); cbn [andb] in Ed; try discriminate Ed; injection Ed as <-; lia.
Qed.
Lemma nat10_unique l l' n : canonical l -> canonical l' -> read_nat 10 l = Some n -> read_nat 10 l' = Some n -> l = l'.
Proof.
  intros C C' E E'. apply (nat_unique 10 ltac:(lia) l l' n); try assumption.
  - destruct l; [discriminate|]. eapply digits10; exact E.
  - destruct l'; [discriminate|]. eapply digits10; exact E'.
Qed.
Lemma read_nat_nonneg l n : read_nat 10 l = Some n -> 0 <= n.
Proof. destruct l as [|c l]; [discriminate|]. intros E. apply (digits_range 10 ltac:(lia)) in E. lia. Qed.
Lemma decimal_parts n t : decimal n t ->
  (0 <= n /\ read_nat 10 t = Some n /\ canonical t) \/ (n < 0 /\ exists u, t = 45 :: u /\ read_nat 10 u = Some (- n) /\ canonical u).
Proof.
  intros (R & C & D & M). destruct (Z.eq_dec (nth 0 t 0) 45) as [X|X].
  - assert (N : n < 0) by (destruct (Z.lt_ge_cases n 0) as [|G]; [assumption|destruct (M G X)]). right. split; [assumption|]. destruct t as [|c u]; [discriminate|]. cbn in X. subst c. exists u.
    split; [reflexivity|]. cbn in R. destruct (read_nat 10 u) as [k|]; [|discriminate]. injection R as <-. split; [f_equal; lia|]. apply D. assumption.
  - assert (R' : read_nat 10 t = Some n).
    { revert R X. unfold read_int. destruct t as [|c u]; [intros; assumption|]. cbn [nth]. destruct c as [|p|p]; try (intros; assumption).
      do 6 (destruct p as [p|p|]; try (intros; assumption)). intros _ X. destruct (X eq_refl). }
    left. split; [eapply read_nat_nonneg; eassumption|]. auto.
Qed.
Lemma decimal_unique n t t' : decimal n t -> decimal n t' -> t = t'.
Proof.
  intros A B. apply decimal_parts in A, B. destruct A as [(A1 & A2 & A3)|(A1 & u & -> & A2 & A3)], B as [(B1 & B2 & B3)|(B1 & v & -> & B2 & B3)]; try lia.
  - eapply nat10_unique; eassumption.
  - f_equal. eapply nat10_unique; eassumption.
Qed.
Lemma hexadecimal_unique n t t' : hexadecimal n t -> hexadecimal n t' -> t = t'.
Proof. intros (A & B & C) (A' & B' & C'). apply (nat_unique 16 ltac:(lia) t t' n); assumption. Qed.
Lemma hex_width_unique w n t t' : hex_width w n t -> hex_width w n t' -> t = t'.
Proof.
  intros (A & B & C) (A' & B' & C'). destruct t as [|c t]; [discriminate|]. destruct t' as [|c' t']; [discriminate|].
  apply (digits_unique 16 ltac:(lia) _ _ 0 n); try assumption. congruence.
Qed.
Lemma fixed_width_unique w n t t' : fixed_width w n t -> fixed_width w n t' -> t = t'.
Proof.
  intros (A & B) (A' & B'). destruct t as [|c t]; [discriminate|]. destruct t' as [|c' t']; [discriminate|].
  apply (digits_unique 10 ltac:(lia) _ _ 0 n); try assumption; [eapply digits10; exact B|eapply digits10; exact B'|congruence].
Qed.
Lemma iso_date_unique y m d t t' : iso_date y m d t -> iso_date y m d t' -> t = t'.
Proof.
  intros (a & b & c & -> & A & B & C) (a' & b' & c' & -> & A' & B' & C').
  rewrite (fixed_width_unique _ _ _ _ A A'), (fixed_width_unique _ _ _ _ B B'), (fixed_width_unique _ _ _ _ C C'). reflexivity.
Qed.
Lemma iso_datetime_unique y m d h mi s t t' : iso_datetime y m d h mi s t -> iso_datetime y m d h mi s t' -> t = t'.
Proof.
  intros (a & b & c & e & -> & A & B & C & D) (a' & b' & c' & e' & -> & A' & B' & C' & D').
  rewrite (iso_date_unique _ _ _ _ _ A A'), (fixed_width_unique _ _ _ _ B B'), (fixed_width_unique _ _ _ _ C C'), (fixed_width_unique _ _ _ _ D D'). reflexivity.
Qed.
Lemma maker_unique code t t' : manufacturer_text code t -> manufacturer_text code t' -> t = t'.
Proof.
  intros (a & b & c & -> & A & B & C & E) (a' & b' & c' & -> & A' & B' & C' & E'). rewrite <- E' in E. unfold flag_id in E.
  assert (a = a' /\ b = b' /\ c = c') as (-> & -> & ->) by lia. reflexivity.
Qed.
Lemma slave_unique h n n' : slave_node h n -> slave_node h n' -> n = n'.
Proof.
  intros (a0 & a1 & a2 & a3 & m0 & m1 & ve & me & ac & st & s0 & s1 & -> & tid & tman & tver & tacc & tst & tsig & I1 & M1 & V1 & A1 & T1 & G1 & ->)
    (b0 & b1 & b2 & b3 & n0 & n1 & ve' & me' & ac' & st' & z0 & z1 & E & tid' & tman' & tver' & tacc' & tst' & tsig' & I2 & M2 & V2 & A2 & T2 & G2 & ->).
  injection E as <- <- <- <- <- <- <- <- <- <- <- <-.
  rewrite (hexadecimal_unique _ _ _ I1 I2), (maker_unique _ _ _ M1 M2), (decimal_unique _ _ _ V1 V2), (decimal_unique _ _ _ A1 A2),
    (hex_width_unique _ _ _ _ T1 T2), (hex_width_unique _ _ _ _ G1 G2). reflexivity.
Qed.
