(** Lemmas: numbers and options on command lines. *)
From Coq Require Import String.
From Coq Require Import List.
From Verif Require Import CBase CStr PBase MText MXml MSecond MHex MCmd SText SSecond SXml PText PSecond SCmd.
From Coq Require Import Lia ZifyBool.
Local Open Scope Z_scope.

Lemma same_str_eq : forall s t, same_str s t = true <-> s = t.
Proof.
  induction s as [|c s IH]; intros [|d t]; cbn; split; try congruence; try (intros; discriminate); auto.
  - intros H. apply andb_prop in H. destruct H as [H1 H2]. apply Z.eqb_eq in H1. apply IH in H2. congruence.
  - intros H. injection H as -> ->. rewrite Z.eqb_refl. cbn. apply IH. reflexivity.
Qed.
Lemma is_eq s t : is s t = true <-> s = cstr t.
Proof. apply same_str_eq. Qed.

(** The digits at the beginning. *)
Lemma leading_spec : forall s v, exists ds rest, s = ds ++ rest /\ read_digits 10 ds v = Some (leading_value s v) /\ ~ begins digit rest.
Proof.
  induction s as [|c s IH]; intros v; cbn [leading_value].
  - exists [], []. cbn. auto.
  - destruct ((48 <=? c) && (c <=? 57)) eqn:E.
    + destruct (IH (10 * v + (c - 48))) as (ds & rest & E1 & E2 & E3). exists (c :: ds), rest. split; [cbn; congruence|]. split; [|exact E3].
      cbn [read_digits]. assert (digit_value c = Some (c - 48)) as -> by (unfold digit_value; destruct ((48 <=? c) && (c <=? 57)) eqn:E4; [reflexivity|congruence]).
      destruct (c - 48 <? 10) eqn:E4; [|lia]. rewrite <- E2. f_equal. ring.
    + exists [], (c :: s). cbn. split; [reflexivity|]. split; [reflexivity|]. unfold digit. lia.
Qed.
Lemma leading_read : forall ds rest v m, read_digits 10 ds v = Some m -> ~ begins digit rest -> leading_value (ds ++ rest) v = m.
Proof.
  induction ds as [|c ds IH]; intros rest v m H Hr; cbn [app].
  - cbn in H. injection H as <-. destruct rest as [|c r]; [reflexivity|]. cbn in Hr |- *. destruct ((48 <=? c) && (c <=? 57)) eqn:E; [|reflexivity]. exfalso. apply Hr. unfold digit. lia.
  - cbn [read_digits] in H. destruct (digit_value c) as [d|] eqn:E; [|discriminate]. destruct (d <? 10) eqn:E2; [|discriminate].
    assert (E3 : 48 <= c <= 57 /\ d = c - 48).
    { unfold digit_value in E. destruct ((48 <=? c) && (c <=? 57)) eqn:E4; [injection E as <-; lia|].
      repeat match type of E with (if ?b then _ else _) = _ => destruct b eqn:?; [injection E as <-; lia|] end. discriminate E. }
    cbn [leading_value]. destruct ((48 <=? c) && (c <=? 57)) eqn:E4; [|lia]. rewrite <- (IH rest (v * 10 + d) m H Hr). f_equal. lia.
Qed.
Lemma read_digits_nat ds m : read_digits 10 ds 0 = Some m -> ds = [] /\ m = 0 \/ read_nat 10 ds = Some m.
Proof. destruct ds; cbn; intros H; [left; injection H as <-; auto|right; exact H]. Qed.
Lemma skip_space_spec : forall s, exists sp, s = sp ++ skip_space s /\ Forall white sp /\ ~ begins white (skip_space s).
Proof.
  induction s as [|c s IH]; cbn [skip_space].
  - exists []. cbn. auto.
  - destruct (isspace c) eqn:E.
    + destruct IH as (sp & E1 & E2 & E3). exists (c :: sp). split; [cbn; congruence|]. split; [|exact E3]. constructor; [|exact E2]. unfold isspace, white in *. lia.
    + exists []. cbn. split; [reflexivity|]. split; [constructor|]. unfold isspace, white in *. lia.
Qed.
Lemma skip_space_app : forall sp s, Forall white sp -> ~ begins white s -> skip_space (sp ++ s) = s.
Proof.
  induction sp as [|c sp IH]; intros s H Hs; cbn [app].
  - destruct s as [|c s]; [reflexivity|]. cbn in Hs |- *. destruct (isspace c) eqn:E; [|reflexivity]. exfalso. apply Hs. unfold isspace, white in *. lia.
  - inversion_clear H. cbn [skip_space]. assert (isspace c = true) as -> by (unfold isspace, white in *; lia). auto.
Qed.
(** Every text stands for exactly one number: that of strtol. *)
Lemma reads_strtol s : reads s (strtol10 s).
Proof.
  destruct (skip_space_spec s) as (sp & E & Hsp & Hns). unfold strtol10. destruct (skip_space s) as [|c t] eqn:Et.
  - exists sp, [], [], [], 0. split; [exact E|]. split; [exact Hsp|]. split; [auto|]. split; [cbn; tauto|]. left. cbn. tauto.
  - destruct (c =? 45) eqn:E1; [|destruct (c =? 43) eqn:E2].
    + destruct (leading_spec t 0) as (ds & rest & F1 & F2 & F3). exists sp, [45], ds, rest, (leading_value t 0).
      assert (c = 45) by lia. subst c. split; [rewrite E; cbn; congruence|]. split; [exact Hsp|]. split; [apply read_digits_nat; exact F2|]. split; [exact F3|]. auto.
    + destruct (leading_spec t 0) as (ds & rest & F1 & F2 & F3). exists sp, [43], ds, rest, (leading_value t 0).
      assert (c = 43) by lia. subst c. split; [rewrite E; cbn; congruence|]. split; [exact Hsp|]. split; [apply read_digits_nat; exact F2|]. split; [exact F3|]. auto.
    + destruct (leading_spec (c :: t) 0) as (ds & rest & F1 & F2 & F3). exists sp, [], ds, rest, (leading_value (c :: t) 0).
      split; [rewrite E; cbn; congruence|]. split; [exact Hsp|]. split; [apply read_digits_nat; exact F2|]. split; [exact F3|].
      left. split; [reflexivity|]. split; [reflexivity|]. rewrite <- F1. cbn in Hns |- *. unfold white in *. lia.
Qed.
Lemma reads_once s n : reads s n -> n = strtol10 s.
Proof.
  intros (sp & sg & ds & rest & m & -> & Hsp & Hd & Hr & H).
  assert (L : leading_value (ds ++ rest) 0 = m).
  { apply leading_read; [|exact Hr]. destruct Hd as [[-> ->]|Hd]; [reflexivity|]. destruct ds; [discriminate|exact Hd]. }
  unfold strtol10. destruct H as [(-> & -> & Hb)|[(-> & ->)|(-> & ->)]]; cbn [app].
  - rewrite skip_space_app; [|exact Hsp|].
    + destruct (ds ++ rest) as [|c t] eqn:E; [cbn in L; congruence|]. cbn in Hb. destruct (c =? 45) eqn:E1; [lia|]. destruct (c =? 43) eqn:E2; [lia|]. congruence.
    + destruct (ds ++ rest); cbn in *; tauto.
  - rewrite skip_space_app; [|exact Hsp|cbn; unfold white; lia]. cbn. congruence.
  - rewrite skip_space_app; [|exact Hsp|cbn; unfold white; lia]. cbn. congruence.
Qed.
Lemma fits_atoi s : fits s -> atoi s = Ok (strtol10 s).
Proof.
  intros (n & H & Hn). apply reads_once in H. subst n. unfold atoi, int_op, in_int, INT_MIN, INT_MAX in *.
  destruct (_ && _) eqn:E; [reflexivity|]. lia.
Qed.
Lemma fits_atol s : fits s -> atol s = Ok (strtol10 s).
Proof.
  intros (n & H & Hn). apply reads_once in H. subst n. unfold atol, llong_op, in_llong, LLONG_MIN, LLONG_MAX in *.
  destruct (_ && _) eqn:E; [reflexivity|]. lia.
Qed.
Lemma atol_ok s v : atol s = Ok v -> v = strtol10 s.
Proof. unfold atol, llong_op. destruct (in_llong _); intros H; [injection H; auto|discriminate]. Qed.
Lemma atoi_ok s v : atoi s = Ok v -> v = strtol10 s.
Proof. unfold atoi, int_op. destruct (in_int _); intros H; [injection H; auto|discriminate]. Qed.
Lemma atol_bad s : atol s = UB -> ~ fits s.
Proof. intros H F. rewrite fits_atol in H by exact F. discriminate. Qed.
Lemma atoi_bad s : atoi s = UB -> ~ fits s.
Proof. intros H F. rewrite fits_atoi in H by exact F. discriminate. Qed.
(** A decimal number is read as written. *)
Lemma reads_decimal n s : decimal n s -> reads s n.
Proof.
  intros [H _]. destruct s as [|c s]; [discriminate|]. unfold read_int in H.
  assert (Hc : c = 45 \/ read_nat 10 (c :: s) = Some n).
  { repeat (match type of H with context[match ?x with _ => _ end] => is_var x; destruct x end; auto). }
  destruct (Z.eq_dec c 45) as [->|Hn].
  - destruct (read_nat 10 s) as [m|] eqn:E; [|discriminate]. exists [], [45], s, [], m. rewrite app_nil_r. split; [reflexivity|]. split; [constructor|]. split; [auto|]. split; [cbn; tauto|].
    right. right. split; [reflexivity|]. congruence.
  - destruct Hc as [Hc|Hc]; [contradiction|]. exists [], [], (c :: s), [], n. rewrite app_nil_r. split; [reflexivity|]. split; [constructor|]. split; [auto|]. split; [cbn; tauto|].
    left. split; [reflexivity|]. split; [reflexivity|]. intros Hw. cbn [app begins] in Hw. unfold white in Hw. cbn [read_nat read_digits] in Hc. unfold digit_value in Hc.
    destruct ((48 <=? c) && (c <=? 57)) eqn:E1; [lia|]. destruct ((65 <=? c) && (c <=? 70)) eqn:E2; [lia|]. destruct ((97 <=? c) && (c <=? 102)) eqn:E3; [lia|].
    discriminate Hc.
Qed.
