(** Property C46: conversion of hexadecimal text. *)
From Coq Require Import String.
From Coq Require Import List.
From Verif Require Import CBase PBase CStr SText MSecond MHex SHex.

(** The bytes the text denotes to the loop, without a limit. *)
Fixpoint conv (src : list Z) : list Z :=
  match src with
  | c0 :: t => match t with
      | [] => []
      | c1 :: rest => if isspace c0 then conv t else match strtoul16_2 c0 c1 with None => [] | Some v => u8 v :: conv rest end
      end
  | [] => []
  end.
Lemma upd_mid a n v r : (0 < n)%nat -> upd (a ++ repeat 0 n ++ r) (length a) v = (a ++ [v]) ++ repeat 0 (n - 1) ++ r.
Proof.
  intros Hn. rewrite upd_app2 by lia. rewrite Nat.sub_diag. destruct n; [lia|]. cbn [repeat app upd]. rewrite <- app_assoc, Nat.sub_succ, Nat.sub_0_r. reflexivity.
Qed.
Lemma loop_conv n dst_len : forall src out r, (length src <= n)%nat -> (length out <= dst_len)%nat ->
  let all := firstn dst_len (out ++ conv src) in
  hex_loop (out ++ repeat 0 (dst_len - length out) ++ r) dst_len src (length out)
  = Ok (length all, all ++ repeat 0 (dst_len - length all) ++ r).
Proof.
  induction n as [|n IH]; intros src out r Hs Ho; cbv zeta.
  - destruct src; [|cbn in Hs; lia]. cbn [hex_loop conv]. rewrite app_nil_r, firstn_all2 by lia. reflexivity.
  - destruct src as [|c0 [|c1 rest]]; [cbn [hex_loop conv]; rewrite app_nil_r, firstn_all2 by lia; reflexivity..|].
    cbn [hex_loop conv]. destruct (isspace c0).
    { apply (IH (c1 :: rest)); cbn in *; lia. }
    destruct (strtoul16_2 c0 c1) as [v|]; [|rewrite app_nil_r, firstn_all2 by lia; reflexivity].
    destruct (Nat.leb_spec dst_len (length out)).
    { rewrite firstn_app, (firstn_all2 out) by lia. replace (dst_len - length out)%nat with O by lia. cbn [firstn]. rewrite app_nil_r.
      replace (dst_len - length out)%nat with O by lia. reflexivity. }
    rewrite wr_ok by (rewrite !app_length, repeat_length; lia). cbn [bind]. rewrite upd_mid by lia.
    replace (S (length out)) with (length (out ++ [u8 v])) by (rewrite app_length; cbn; lia).
    replace (dst_len - length out - 1)%nat with (dst_len - length (out ++ [u8 v]))%nat by (rewrite app_length; cbn; lia).
    rewrite IH; [|cbn in Hs; lia|rewrite app_length; cbn; lia].
    rewrite <- app_assoc. reflexivity.
Qed.
Lemma hex2bin_conv dst dst_len src : (dst_len <= length dst)%nat ->
  let out := firstn dst_len (conv src) in
  mbus_hex2bin dst dst_len src = Ok (length out, out ++ repeat 0 (dst_len - length out) ++ skipn dst_len dst).
Proof.
  intros H. cbv zeta. unfold mbus_hex2bin. rewrite put_list_ok by (rewrite repeat_length; lia). cbn [bind].
  rewrite repeat_length. cbn [Nat.add firstn app].
  pose proof (loop_conv (length src) dst_len src [] (skipn dst_len dst) ltac:(lia) ltac:(cbn; lia)) as L. cbv zeta in L. cbn [length app] in L.
  rewrite Nat.sub_0_r in L. exact L.
Qed.

(** C46, any text whatever: the call is defined, at most dst_len bytes are written, the count is that of the
    bytes converted, the rest of the dst_len bytes is zero and everything behind is untouched. *)
Theorem C46_bounded :
  forall dst dst_len src, (dst_len <= length dst)%nat ->
  exists out, mbus_hex2bin dst dst_len src = Ok (length out, out ++ repeat 0 (dst_len - length out) ++ skipn dst_len dst)
    /\ (length out <= dst_len)%nat /\ bytes out.
Proof.
  intros dst n src H. exists (firstn n (conv src)). split; [apply hex2bin_conv; assumption|]. split; [rewrite firstn_length; lia|].
  apply bytes_firstn. clear. assert (G : forall k src, (length src <= k)%nat -> bytes (conv src)); [|eauto].
  induction k as [|k IH]; intros s Hs; (destruct s as [|c0 [|c1 rest]]; [constructor|constructor|]); [cbn in Hs; lia|].
  cbn [conv]. destruct (isspace c0); [apply (IH (c1 :: rest)); cbn in *; lia|]. destruct (strtoul16_2 c0 c1); [|constructor].
  constructor; [apply u8_byte|apply IH; cbn in *; lia].
Qed.

Lemma white_isspace c : white c -> isspace c = true.
Proof. unfold white, isspace. lia. Qed.
Lemma digit_xdigit c d : digit_value c = Some d -> isxdigit c = true /\ hex_digit_value c = d /\ 0 <= d <= 15 /\ isspace c = false /\ c <> 43 /\ c <> 45.
Proof.
  unfold digit_value, isxdigit, hex_digit_value, isspace. intros H.
  destruct ((48 <=? c) && (c <=? 57)) eqn:E1; [injection H as <-; repeat match goal with |- context [if ?b then _ else _] => destruct b eqn:? end; repeat split; lia|].
  destruct ((65 <=? c) && (c <=? 70)) eqn:E2; [injection H as <-; repeat match goal with |- context [if ?b then _ else _] => destruct b eqn:? end; repeat split; lia|].
  destruct ((97 <=? c) && (c <=? 102)) eqn:E3; [injection H as <-; repeat match goal with |- context [if ?b then _ else _] => destruct b eqn:? end; repeat split; lia|discriminate].
Qed.
Lemma read2_conv c0 c1 b : read_nat 16 [c0; c1] = Some b -> strtoul16_2 c0 c1 = Some b /\ u8 b = b /\ isspace c0 = false.
Proof.
  cbn [read_nat read_digits]. destruct (digit_value c0) as [d0|] eqn:D0; [|discriminate].
  destruct (d0 <? 16); [|discriminate]. destruct (digit_value c1) as [d1|] eqn:D1; [|discriminate]. destruct (d1 <? 16); [|discriminate].
  intros H. injection H as <-. destruct (digit_xdigit _ _ D0) as (X0 & V0 & R0 & S0 & N1 & N2). destruct (digit_xdigit _ _ D1) as (X1 & V1 & R1 & _).
  unfold strtoul16_2. rewrite X0, X1, V0, V1. replace ((c0 =? 43) || (c0 =? 45)) with false by lia.
  split; [f_equal; lia|]. split; [|assumption]. unfold u8. apply Z.mod_small. lia.
Qed.
Lemma conv_nil_white c s : white c -> conv (c :: s) = conv s.
Proof. intros H. cbn [conv]. destruct s; [reflexivity|]. rewrite white_isspace by assumption. reflexivity. Qed.
Lemma conv_text s bs more : hex_dump s bs -> conv (s ++ more) = bs ++ conv more.
Proof.
  induction 1 as [|c s bs W _ IH|c0 c1 s b bs R _ IH]; [reflexivity|cbn [app]; rewrite conv_nil_white; assumption|].
  cbn [app conv]. destruct (read2_conv _ _ _ R) as (E & U & Sp). rewrite Sp, E, U, IH. reflexivity.
Qed.

(** C46, hexadecimal text: exactly the denoted bytes, as many as fit. *)
Theorem C46_converts :
  forall dst dst_len src bs, (dst_len <= length dst)%nat -> hex_dump src bs ->
  let out := firstn dst_len bs in
  mbus_hex2bin dst dst_len src = Ok (length out, out ++ repeat 0 (dst_len - length out) ++ skipn dst_len dst).
Proof.
  intros dst n src bs H T. rewrite hex2bin_conv by assumption. rewrite <- (app_nil_r src), (conv_text _ _ [] T), app_nil_r. reflexivity.
Qed.
(** C46, invalid input: where a byte should begin, a character that is no digit, no white space and no sign ends the
    conversion; so does a single digit at the end of the text. Partial: a sign or an invalid second character does
    not (refutation). *)
Theorem C46_stops_partial :
  forall dst dst_len src bs x more, (dst_len <= length dst)%nat -> hex_dump src bs ->
  digit_value x = None /\ ~ white x /\ x <> 43 /\ x <> 45 \/ more = [] ->
  let out := firstn dst_len bs in
  mbus_hex2bin dst dst_len (src ++ x :: more) = Ok (length out, out ++ repeat 0 (dst_len - length out) ++ skipn dst_len dst).
Proof.
  intros dst n src bs x more H T Hx. rewrite hex2bin_conv by assumption. rewrite (conv_text _ _ _ T).
  replace (conv (x :: more)) with (@nil Z); [rewrite app_nil_r; reflexivity|].
  destruct more as [|c1 rest]; [reflexivity|]. destruct Hx as [(D & W & N1 & N2)|]; [|discriminate].
  cbn [conv]. replace (isspace x) with false by (unfold isspace; unfold white in W; lia).
  unfold strtoul16_2. replace ((x =? 43) || (x =? 45)) with false by lia.
  replace (isxdigit x) with false; [reflexivity|]. unfold isxdigit. unfold digit_value in D.
  destruct ((48 <=? x) && (x <=? 57)); [discriminate|]. destruct ((65 <=? x) && (x <=? 70)); [discriminate|].
  destruct ((97 <=? x) && (x <=? 102)); [discriminate|reflexivity].
Qed.
(** C46 fails: the invalid characters in these texts do not stop the conversion. *)
Theorem C46_invalid_accepted_refuted :
  mbus_hex2bin [0; 0; 0] 3 (cstr "1g22") = Ok (2%nat, [1; 0x22; 0]) /\
  mbus_hex2bin [0; 0; 0] 3 (cstr "-122") = Ok (2%nat, [0xFF; 0x22; 0]) /\
  mbus_hex2bin [0; 0; 0] 3 (cstr "0x22") = Ok (2%nat, [0; 0x22; 0]).
Proof. repeat split; vm_compute; reflexivity. Qed.

Example C46_nonvacuous :
  hex_dump (cstr "68 0f0F" ++ [10; 9] ++ cstr "16 ") [0x68; 0x0F; 0x0F; 0x16] /\
  mbus_hex2bin [7; 7; 7; 7; 7; 7] 5 (cstr "68 0f0F" ++ [10; 9] ++ cstr "16 ") = Ok (4%nat, [0x68; 0x0F; 0x0F; 0x16; 0; 7]) /\
  mbus_hex2bin [7; 7; 7; 7] 2 (cstr "68 0f0F" ++ [10; 9] ++ cstr "16 ") = Ok (2%nat, [0x68; 0x0F; 7; 7]).
Proof.
  split; [|split; vm_compute; reflexivity]. vm_compute cstr. cbn [app].
  repeat first [apply ht_byte; [vm_compute; reflexivity|] | apply ht_white; [unfold white; lia|]]. constructor.
Qed.
Print Assumptions C46_bounded.
Print Assumptions C46_converts.
Print Assumptions C46_stops_partial.
Print Assumptions C46_invalid_accepted_refuted.
