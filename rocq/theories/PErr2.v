(** Proofs about the error texts: a faulty record makes the parser say so. *)
From Coq Require Import String.
From Coq Require Import List.
From Verif Require Import CBase PBase CStr MFrame MCodec PCodec PCodec2 MVar SVar PVar PVar2 PVar3 MText MXml MSecond MErr SErr PErr.

Lemma rem_bytes d n i : bytes d -> bytes (rem d n i).
Proof. intros H. unfold rem. apply bytes_firstn, bytes_skipn. exact H. Qed.

Section Loop.
  Context (m d : list Z) (n : nat) (Hb : bytes d) (Hn : (n <= List.length d)%nat).

  (** Reading one byte of the payload. *)
  Lemma rem_head i x l : rem d n i = x :: l -> (i < n)%nat /\ nth i d 0 = x /\ rem d n (i + 1) = l /\ is_byte x.
  Proof.
    intros E. destruct (Nat.lt_ge_cases i n) as [Hi|Hi]; [|rewrite rem_end in E by lia; discriminate].
    pose proof (bytes_nth d i Hb ltac:(lia)) as HB.
    rewrite rem_step in E by lia. injection E as E1 E2. subst x. auto.
  Qed.

  Lemma loop_many : forall k fuel i arr cnt, (n - i < fuel)%nat -> List.length arr = 10%nat -> (cnt + k = 11)%nat -> (1 <= k)%nat ->
    all_ext (firstn k (rem d n i)) -> (k <= List.length (rem d n i))%nat ->
    ext_loop_e m fuel d n i arr cnt = Ok (FailE m).
  Proof.
    induction k as [|k IH]; intros fuel i arr cnt Hf Ha Hk Hk1 HA HL; [lia|].
    destruct (rem d n i) as [|x l] eqn:E; [cbn in HL; lia|].
    destruct (rem_head _ _ _ E) as (Hi & Hx & Hr & HB). cbn [firstn] in HA. inversion_clear HA as [|? ? Hx8 HA'].
    subst x l.
    destruct fuel as [|fuel]; [lia|]. cbn [ext_loop_e].
    destruct (Nat.ltb_spec i n); [|lia]. rewrite rd_ok by lia. cbn [bind]. rewrite (land80 _ HB).
    destruct (Z.ltb_spec (nth i d 0) 128); [lia|]. cbn [negb].
    destruct (Nat.leb_spec 10 cnt); [reflexivity|].
    destruct k as [|k]; [lia|]. cbn [List.length] in HL.
    assert (i + 1 < n)%nat. { destruct (Nat.lt_ge_cases (i + 1) n); [assumption|]. rewrite rem_end in HL by lia. cbn in HL. lia. }
    rewrite rd_ok by lia. cbn [bind]. rewrite wr_ok by lia. cbn [bind].
    apply IH; try (rewrite ?upd_length; lia). exact HA'.
  Qed.
  Lemma loop_all : forall k fuel i arr cnt, k = List.length (rem d n i) -> (n - i < fuel)%nat -> (i <= n)%nat -> List.length arr = 10%nat -> (cnt + k <= 10)%nat ->
    all_ext (rem d n i) -> (n < List.length d)%nat ->
    exists arr' cnt', ext_loop_e m fuel d n i arr cnt = Ok (GoE (arr', cnt', n)).
  Proof.
    induction k as [|k IH]; intros fuel i arr cnt E0 Hf Hi0 Ha Hc HA Hd.
    - rewrite rem_length in E0 by lia. destruct fuel as [|fuel]; [lia|]. cbn [ext_loop_e].
      destruct (Nat.ltb_spec i n); [lia|]. assert (i = n) as -> by lia. eauto.
    - destruct (rem d n i) as [|x l] eqn:E; [discriminate|].
      destruct (rem_head _ _ _ E) as (Hi & Hx & Hr & HB). inversion_clear HA as [|? ? Hx8 HA'].
      destruct fuel as [|fuel]; [lia|]. cbn [ext_loop_e].
      destruct (Nat.ltb_spec i n); [|lia]. rewrite rd_ok by lia. cbn [bind]. rewrite Hx, (land80 _ HB).
      destruct (Z.ltb_spec x 128); [lia|]. cbn [negb].
      destruct (Nat.leb_spec 10 cnt); [lia|].
      rewrite rd_ok by lia. cbn [bind]. rewrite wr_ok by lia. cbn [bind].
      apply IH; rewrite ?Hr, ?upd_length; try lia; try assumption. cbn [List.length] in E0. lia.
  Qed.
  Lemma loop_whole : forall ext b fuel i arr cnt r, rem d n i = b :: ext ++ r -> chained b ext -> (n - i < fuel)%nat ->
    List.length arr = 10%nat -> (cnt + List.length ext <= 10)%nat ->
    exists arr' cnt', ext_loop_e m fuel d n i arr cnt = Ok (GoE (arr', cnt', (i + List.length ext)%nat)) /\ List.length arr' = 10%nat
      /\ rem d n (i + List.length ext + 1) = r.
  Proof.
    induction ext as [|x ext IH]; intros b fuel i arr cnt r E Ch Hf Ha Hc; cbn [app chained List.length] in *;
      destruct (rem_head _ _ _ E) as (Hi & Hx & Hr & HB); (destruct fuel as [|fuel]; [lia|]); cbn [ext_loop_e];
      (destruct (Nat.ltb_spec i n); [|lia]); rewrite rd_ok by lia; cbn [bind]; rewrite Hx, (land80 _ HB).
    - destruct (Z.ltb_spec b 128); [|lia]. cbn [negb]. exists arr, cnt. rewrite Nat.add_0_r. auto.
    - destruct Ch as [Ch1 Ch2]. destruct (Z.ltb_spec b 128); [lia|]. cbn [negb].
      destruct (Nat.leb_spec 10 cnt); [lia|].
      destruct (rem_head _ _ _ Hr) as (Hi1 & Hx1 & Hr1 & HB1).
      rewrite rd_ok by lia. cbn [bind]. rewrite wr_ok by lia. cbn [bind].
      destruct (IH x fuel (i + 1)%nat (upd arr cnt (nth (i + 1) d 0)) (cnt + 1)%nat r Hr Ch2 ltac:(lia) ltac:(rewrite upd_length; lia) ltac:(lia))
        as (a' & c' & E1 & E2 & E3).
      exists a', c'. rewrite E1. replace (i + S (List.length ext))%nat with (i + 1 + List.length ext)%nat by lia. auto.
  Qed.
End Loop.

Section Record.
  Context (d : list Z) (n : nat) (Hb : bytes d) (Hn : (n + 2 <= List.length d)%nat).
  Let Hn' : (n <= List.length d)%nat. Proof. lia. Qed.

  Lemma vif_whole i vif w l : rem d n i = vif :: w ++ l -> text_part vif w ->
    exists c' i', parse_vif_e d n i (r_custom rec_new) = Ok (GoE (vif, c', i')) /\ rem d n i' = l /\ (i < i' <= n)%nat.
  Proof.
    intros E Hw. destruct (rem_head d n Hb Hn' _ _ _ E) as (Hi & Hx & Hr & HB).
    unfold parse_vif_e. rewrite rd_ok by lia. cbn [bind]. rewrite Hx, (land7F _ HB).
    change (vif mod 128 =? 124) with (has_text vif). unfold text_part in Hw.
    destruct (has_text vif).
    2:{ subst w. do 2 eexists. split; [reflexivity|]. split; [exact Hr|lia]. }
    destruct Hw as (k & t & -> & Hk1 & Hk2). cbn [app] in Hr.
    destruct (rem_head d n Hb Hn' _ _ _ Hr) as (Hi1 & Hx1 & Hr1 & HB1). unfold is_byte in HB1.
    rewrite rd_ok by lia. cbn [bind]. rewrite Hx1.
    destruct (Z.ltb_spec 128 k); [lia|].
    assert (HL : List.length (rem d n (i + 1 + 1)) = (List.length t + List.length l)%nat) by (rewrite Hr1; apply app_length).
    rewrite rem_length in HL by lia.
    destruct (Nat.ltb_spec n (i + 1 + 1 + Z.to_nat k)); [lia|].
    rewrite str_decode_spec by (cbn [r_custom rec_new]; rewrite ?repeat_length, ?skipn_length; lia).
    cbn [bind]. do 2 eexists. split; [reflexivity|]. split; [|lia].
    rewrite <- rem_skip by lia. rewrite Hr1. replace (Z.to_nat k) with (List.length t) by lia. apply skipn_app_exact. reflexivity.
  Qed.
  Lemma vife_whole i vif vifes l : is_byte vif -> rem d n i = vifes ++ l -> whole vif vifes -> (i <= n)%nat ->
    exists a' c' i', parse_vife_e d n i vif (r_vife rec_new) = Ok (GoE (a', c', i')) /\ rem d n i' = l /\ (i' <= n)%nat.
  Proof.
    intros HB E [Ch HL] Hi. unfold parse_vife_e. rewrite (land80 _ HB).
    destruct vifes as [|x ext]; cbn [chained app List.length] in *.
    - destruct (Z.ltb_spec vif 128); [|lia]. cbn [negb]. eauto 7.
    - destruct Ch as [Ch1 Ch2]. destruct (Z.ltb_spec vif 128); [lia|]. cbn [negb].
      destruct (rem_head d n Hb Hn' _ _ _ E) as (Hi1 & Hx1 & Hr1 & HB1).
      rewrite rd_ok by lia. cbn [bind]. rewrite wr_ok by (cbn; lia). cbn [bind].
      destruct (loop_whole (cstr "Too many VIFE.") d n Hb Hn' ext x (S (List.length d)) i (upd (r_vife rec_new) 0 (nth i d 0)) 1 l E Ch2
                  ltac:(lia) ltac:(rewrite upd_length; reflexivity) ltac:(lia)) as (a' & c' & E1 & E2 & E3).
      rewrite E1. cbn [ebind bind]. do 3 eexists. split; [reflexivity|]. split; [exact E3|].
      destruct (Nat.le_gt_cases (i + List.length ext + 1) n); [assumption|].
      apply (f_equal (@List.length Z)) in E. rewrite rem_length in E by lia. cbn [List.length] in E. rewrite app_length in E. lia.
  Qed.

  Lemma record_says i l m : rem d n i = l -> record_fault l m -> parse_record_e d n i = Ok (FailE m).
  Proof.
    intros E F.
    assert (Hi : (i < n)%nat).
    { destruct (Nat.lt_ge_cases i n); [assumption|]. rewrite rem_end in E by lia. subst l. exfalso.
      inversion F; subst; cbn in *; try lia; try discriminate. }
    pose proof (bytes_nth d i Hb ltac:(lia)) as HB.
    unfold parse_record_e. rewrite rd_ok by lia. cbn [bind].
    destruct F as [l HA HL|l HA HL|dif difes vif k t [Ch HD] Ht Hk|dif difes vif k t [Ch HD] Ht Hk Hl
                  |dif difes vif w l [Ch HD] Hv Hw HA HL|dif difes vif w l [Ch HD] Hv Hw HA HL
                  |dif difes vif w vifes l [Ch HD] Wv Hw H13 HL|dif difes vif w vifes [Ch HD] Wv Hw H13|dif difes vif w vifes b l [Ch HD] Wv Hw H13 HL].
    - subst l. rewrite (loop_many _ d n Hb Hn' 11) by (assumption || reflexivity || lia). reflexivity.
    - subst l. destruct (loop_all (cstr "Too many DIFE.") d n Hb Hn' _ (S (List.length d)) i (r_dife rec_new) 0 eq_refl) as (a' & c' & E1);
        try assumption; try reflexivity; try lia.
      rewrite E1. cbn [ebind bind]. destruct (Nat.ltb_spec n (n + 1)); [reflexivity|lia].
    - destruct (loop_whole (cstr "Too many DIFE.") d n Hb Hn' difes dif (S (List.length d)) i (r_dife rec_new) 0 _ E Ch ltac:(lia) eq_refl ltac:(lia)) as (a' & c' & E1 & E2 & E3).
      rewrite E1. cbn [ebind bind].
      destruct (rem_head d n Hb Hn' _ _ _ E3) as (Hi1 & Hx1 & Hr1 & HB1).
      destruct (rem_head d n Hb Hn' _ _ _ Hr1) as (Hi2 & Hx2 & Hr2 & HB2).
      destruct (Nat.ltb_spec n (i + List.length difes + 1)); [lia|].
      unfold parse_vif_e. rewrite rd_ok by lia. cbn [bind]. rewrite Hx1, (land7F _ HB1).
      change (vif mod 128 =? 124) with (has_text vif). rewrite Ht. rewrite rd_ok by lia. cbn [bind]. rewrite Hx2.
      destruct (Z.ltb_spec 128 k); [reflexivity|lia].
    - destruct (loop_whole (cstr "Too many DIFE.") d n Hb Hn' difes dif (S (List.length d)) i (r_dife rec_new) 0 _ E Ch ltac:(lia) eq_refl ltac:(lia)) as (a' & c' & E1 & E2 & E3).
      rewrite E1. cbn [ebind bind].
      destruct (rem_head d n Hb Hn' _ _ _ E3) as (Hi1 & Hx1 & Hr1 & HB1).
      destruct (rem_head d n Hb Hn' _ _ _ Hr1) as (Hi2 & Hx2 & Hr2 & HB2).
      destruct (Nat.ltb_spec n (i + List.length difes + 1)); [lia|].
      unfold parse_vif_e. rewrite rd_ok by lia. cbn [bind]. rewrite Hx1, (land7F _ HB1).
      change (vif mod 128 =? 124) with (has_text vif). rewrite Ht. rewrite rd_ok by lia. cbn [bind]. rewrite Hx2.
      destruct (Z.ltb_spec 128 k); [lia|].
      apply (f_equal (@List.length Z)) in Hr2. rewrite rem_length in Hr2 by lia.
      destruct (Nat.ltb_spec n (i + List.length difes + 1 + 1 + 1 + Z.to_nat k)); [reflexivity|lia].
    - destruct (loop_whole (cstr "Too many DIFE.") d n Hb Hn' difes dif (S (List.length d)) i (r_dife rec_new) 0 _ E Ch ltac:(lia) eq_refl ltac:(lia)) as (a' & c' & E1 & E2 & E3).
      rewrite E1. cbn [ebind bind].
      destruct (rem_head d n Hb Hn' _ _ _ E3) as (Hi1 & Hx1 & Hr1 & HB1).
      destruct (vif_whole _ _ _ _ E3 Hw) as (cu & i2 & E4 & E5 & Hi2).
      destruct (Nat.ltb_spec n (i + List.length difes + 1)); [lia|].
      rewrite E4. cbn [ebind bind]. unfold parse_vife_e. rewrite (land80 _ HB1).
      destruct (Z.ltb_spec vif 128); [lia|]. cbn [negb].
      assert (i2 < n)%nat. { destruct (Nat.lt_ge_cases i2 n); [assumption|]. rewrite rem_end in E5 by lia. subst l. cbn in HL. lia. }
      rewrite rd_ok by lia. cbn [bind]. rewrite wr_ok by (cbn; lia). cbn [bind].
      rewrite <- E5 in HA, HL. rewrite (loop_many _ d n Hb Hn' 10) by (assumption || reflexivity || lia). reflexivity.
    - destruct (loop_whole (cstr "Too many DIFE.") d n Hb Hn' difes dif (S (List.length d)) i (r_dife rec_new) 0 _ E Ch ltac:(lia) eq_refl ltac:(lia)) as (a' & c' & E1 & E2 & E3).
      rewrite E1. cbn [ebind bind].
      destruct (rem_head d n Hb Hn' _ _ _ E3) as (Hi1 & Hx1 & Hr1 & HB1).
      destruct (vif_whole _ _ _ _ E3 Hw) as (cu & i2 & E4 & E5 & Hi2).
      destruct (Nat.ltb_spec n (i + List.length difes + 1)); [lia|].
      rewrite E4. cbn [ebind bind]. unfold parse_vife_e. rewrite (land80 _ HB1).
      destruct (Z.ltb_spec vif 128); [lia|]. cbn [negb].
      rewrite rd_ok by lia. cbn [bind]. rewrite wr_ok by (cbn; lia). cbn [bind].
      rewrite <- E5 in HA, HL.
      destruct (loop_all (cstr "Too many VIFE.") d n Hb Hn' _ (S (List.length d)) i2 (upd (r_vife rec_new) 0 (nth i2 d 0)) 1 eq_refl) as (a2 & c2 & E6);
        try assumption; try reflexivity; try lia.
      rewrite E6. cbn [ebind bind]. destruct (Nat.ltb_spec n (n + 1)); [reflexivity|lia].
    - destruct (loop_whole (cstr "Too many DIFE.") d n Hb Hn' difes dif (S (List.length d)) i (r_dife rec_new) 0 _ E Ch ltac:(lia) eq_refl ltac:(lia)) as (a' & c' & E1 & E2 & E3).
      rewrite E1. cbn [ebind bind].
      destruct (rem_head d n Hb Hn' _ _ _ E) as (_ & Hdif & _ & HBd).
      destruct (rem_head d n Hb Hn' _ _ _ E3) as (Hi1 & Hx1 & Hr1 & HB1).
      destruct (vif_whole _ _ _ _ E3 Hw) as (cu & i2 & E4 & E5 & Hi2).
      destruct (vife_whole _ vif _ _ HB1 E5 Wv ltac:(lia)) as (a3 & c3 & i3 & E6 & E7 & Hi3).
      destruct (Nat.ltb_spec n (i + List.length difes + 1)); [lia|].
      rewrite E4. cbn [ebind bind]. rewrite E6. cbn [ebind bind]. destruct (Nat.ltb_spec n i3); [lia|].
      rewrite Hdif, (land0F _ HBd). destruct (Z.eqb_spec (dif mod 16) 13); [contradiction|]. cbn [bind].
      rewrite (difsize_ok _ HBd), Nat2Z.id. apply (f_equal (@List.length Z)) in E7. rewrite rem_length in E7 by lia.
      destruct (Nat.ltb_spec n (i3 + dif_size dif)); [reflexivity|lia].
    - destruct (loop_whole (cstr "Too many DIFE.") d n Hb Hn' difes dif (S (List.length d)) i (r_dife rec_new) 0 _ E Ch ltac:(lia) eq_refl ltac:(lia)) as (a' & c' & E1 & E2 & E3).
      rewrite E1. cbn [ebind bind].
      destruct (rem_head d n Hb Hn' _ _ _ E) as (_ & Hdif & _ & HBd).
      destruct (rem_head d n Hb Hn' _ _ _ E3) as (Hi1 & Hx1 & Hr1 & HB1).
      destruct (vif_whole _ _ _ _ E3 Hw) as (cu & i2 & E4 & E5 & Hi2).
      rewrite <- (app_nil_r vifes) in E5.
      destruct (vife_whole _ vif _ _ HB1 E5 Wv ltac:(lia)) as (a3 & c3 & i3 & E6 & E7 & Hi3).
      destruct (Nat.ltb_spec n (i + List.length difes + 1)); [lia|].
      rewrite E4. cbn [ebind bind]. rewrite E6. cbn [ebind bind]. destruct (Nat.ltb_spec n i3); [lia|].
      rewrite Hdif, (land0F _ HBd). destruct (Z.eqb_spec (dif mod 16) 13); [|contradiction].
      apply (f_equal (@List.length Z)) in E7. rewrite rem_length in E7 by lia. cbn [List.length] in E7.
      rewrite rd_ok by lia. cbn [bind]. rewrite (difsize_ok _ HBd), (difsize_13 _ H13). change (Z.of_nat 0) with 0.
      pose proof (bytes_nth d i3 Hb ltac:(lia)) as HL. pose proof (lvar_range _ HL). rewrite (lvar_ok _ HL).
      destruct (Nat.ltb_spec n (i3 + Z.to_nat (lvar_size (nth i3 d 0) + 1))); [reflexivity|lia].
    - destruct (loop_whole (cstr "Too many DIFE.") d n Hb Hn' difes dif (S (List.length d)) i (r_dife rec_new) 0 _ E Ch ltac:(lia) eq_refl ltac:(lia)) as (a' & c' & E1 & E2 & E3).
      rewrite E1. cbn [ebind bind].
      destruct (rem_head d n Hb Hn' _ _ _ E) as (_ & Hdif & _ & HBd).
      destruct (rem_head d n Hb Hn' _ _ _ E3) as (Hi1 & Hx1 & Hr1 & HB1).
      destruct (vif_whole _ _ _ _ E3 Hw) as (cu & i2 & E4 & E5 & Hi2).
      destruct (vife_whole _ vif _ _ HB1 E5 Wv ltac:(lia)) as (a3 & c3 & i3 & E6 & E7 & Hi3).
      destruct (Nat.ltb_spec n (i + List.length difes + 1)); [lia|].
      rewrite E4. cbn [ebind bind]. rewrite E6. cbn [ebind bind]. destruct (Nat.ltb_spec n i3); [lia|].
      rewrite Hdif, (land0F _ HBd). destruct (Z.eqb_spec (dif mod 16) 13); [|contradiction].
      destruct (rem_head d n Hb Hn' _ _ _ E7) as (Hi4 & Hx4 & Hr4 & HB4).
      rewrite rd_ok by lia. cbn [bind]. rewrite Hx4, (difsize_ok _ HBd), (difsize_13 _ H13). change (Z.of_nat 0) with 0.
      pose proof (lvar_range _ HB4). rewrite (lvar_ok _ HB4).
      apply (f_equal (@List.length Z)) in Hr4. rewrite rem_length in Hr4 by lia.
      destruct (Nat.ltb_spec n (i3 + Z.to_nat (lvar_size b + 1))); [reflexivity|lia].
  Qed.
End Record.
