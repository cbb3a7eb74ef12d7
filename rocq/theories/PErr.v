(** Proofs about the error texts. *)
From Coq Require Import String.
From Coq Require Import List.
From Verif Require Import CBase PBase CStr MFrame MCodec PCodec PCodec2 MVar SVar PVar PVar2 PVar3 MText MXml MSecond MErr SErr.

(** ** The buffer *)
Lemma c_text_app m t : ~ In 0 m -> c_text (m ++ 0 :: t) = m.
Proof.
  induction m as [|c m IH]; intros H; cbn [app c_text]; [reflexivity|].
  destruct (Z.eqb_spec c 0) as [->|]; [exfalso; apply H; left; reflexivity|].
  f_equal. apply IH. intros X. apply H. right. exact X.
Qed.
Lemma put_list_ok : forall vs dst o, (o + List.length vs <= List.length dst)%nat ->
  put_list dst o vs = Ok (firstn o dst ++ vs ++ skipn (o + List.length vs) dst).
Proof.
  induction vs as [|v vs IH]; intros dst o H; cbn [put_list List.length] in *.
  - cbn [app]. rewrite Nat.add_0_r, firstn_skipn. reflexivity.
  - rewrite wr_ok by lia. cbn [bind]. rewrite IH by (rewrite upd_length; lia).
    f_equal. replace (S o) with (o + 1)%nat by lia. rewrite firstn_upd by lia. rewrite skipn_upd by lia.
    rewrite <- app_assoc. cbn [app]. do 3 f_equal. f_equal. lia.
Qed.
Lemma say_ok e m : List.length e = 512%nat -> ~ In 0 m -> exists e', say e m = Ok e' /\ says e' m.
Proof.
  intros He Hm. unfold say, snprintf_s, ERR_SIZE.
  assert (L : (List.length (firstn 511 m ++ [0%Z]) <= 512)%nat) by (rewrite app_length, firstn_length; cbn [List.length]; lia).
  rewrite put_list_ok by (rewrite He; exact L). eexists. split; [reflexivity|].
  change (firstn 0 e) with (@nil Z). rewrite <- app_assoc. cbn [app].
  assert (N : ~ In 0 (firstn 511 m)).
  { intros X. apply Hm. rewrite <- (firstn_skipn 511 m). apply in_or_app. left. exact X. }
  split; [split|].
  - rewrite app_length in L. cbn [List.length] in L. rewrite !app_length. cbn [List.length Nat.add]. rewrite skipn_length.
    lia.
  - apply in_or_app. right. left. reflexivity.
  - apply c_text_app. exact N.
Qed.

(** ** The parsers with texts and the parsers without *)
Definition erase {A} (s : stepE A) : step A := match s with GoE a => Go a | FailE _ => Fail end.
Definition erases {A} (x : res (stepE A)) (y : res (step A)) : Prop := (let* s := x in Ok (erase s)) = y.

Lemma ext_loop_erase m : forall fuel d n i arr cnt, erases (ext_loop_e m fuel d n i arr cnt) (ext_loop fuel d n i arr cnt).
Proof.
  unfold erases. induction fuel as [|fuel IH]; intros d n i arr cnt; cbn [ext_loop_e ext_loop]; [reflexivity|].
  destruct (i <? n)%nat; [|reflexivity].
  destruct (rd d i); cbn [bind]; [|reflexivity].
  destruct (negb (Z.land a 128 =? 0)); [|reflexivity].
  destruct (10 <=? cnt)%nat; [reflexivity|].
  destruct (rd d (i + 1)); cbn [bind]; [|reflexivity].
  destruct (wr arr cnt a0); cbn [bind]; [|reflexivity]. apply IH.
Qed.
Lemma parse_vif_erase d n i c : erases (parse_vif_e d n i c) (parse_vif d n i c).
Proof.
  unfold erases, parse_vif_e, parse_vif. destruct (rd d i) as [v|]; cbn [bind]; [|reflexivity].
  destruct (Z.land v 127 =? 124); [|reflexivity].
  destruct (rd d (i + 1)) as [len|]; cbn [bind]; [|reflexivity].
  destruct (128 <? len); [reflexivity|].
  destruct (n <? i + 1 + 1 + Z.to_nat len)%nat; [reflexivity|].
  destruct (mbus_data_str_decode c (skipn (i + 1 + 1) d) (Z.to_nat len)); reflexivity.
Qed.
Lemma parse_vife_erase d n i v a : erases (parse_vife_e d n i v a) (parse_vife d n i v a).
Proof.
  unfold erases, parse_vife_e, parse_vife. destruct (negb (Z.land v 128 =? 0)); [|reflexivity].
  destruct (rd d i) as [b|]; cbn [bind]; [|reflexivity].
  destruct (wr a 0 b) as [a1|]; cbn [bind]; [|reflexivity].
  rewrite <- (ext_loop_erase (cstr "Too many VIFE.")).
  destruct (ext_loop_e _ _ d n i a1 1) as [[[[x y] z]|m]|]; reflexivity.
Qed.
Lemma parse_record_erase d n i : erases (parse_record_e d n i) (parse_record d n i).
Proof.
  unfold erases, parse_record_e, parse_record. destruct (rd d i) as [dif|]; cbn [bind]; [|reflexivity].
  rewrite <- (ext_loop_erase (cstr "Too many DIFE.")).
  destruct (ext_loop_e _ _ d n i _ 0) as [[[[x y] z]|m]|]; cbn [bind ebind sbind erase]; [|reflexivity|reflexivity].
  destruct (n <? z + 1)%nat; [reflexivity|].
  rewrite <- parse_vif_erase.
  destruct (parse_vif_e d n (z + 1) _) as [[[[v c] k]|m]|]; cbn [bind ebind sbind erase]; [|reflexivity|reflexivity].
  rewrite <- parse_vife_erase.
  destruct (parse_vife_e d n k v _) as [[[[v' c'] k']|m]|]; cbn [bind ebind sbind erase]; [|reflexivity|reflexivity].
  destruct (n <? k')%nat; [reflexivity|].
  destruct (if Z.land dif 15 =? 13 then _ else _) as [len|]; cbn [bind]; [|reflexivity].
  destruct (n <? k' + Z.to_nat len)%nat; [reflexivity|].
  destruct (copy_loop (Z.to_nat len) (r_data rec_new) 0 d k'); reflexivity.
Qed.

(** ** Which fault a text names *)
Lemma ext_loop_fails m : forall fuel d n i arr cnt m', bytes d -> (n <= List.length d)%nat -> (cnt <= 10)%nat ->
  ext_loop_e m fuel d n i arr cnt = Ok (FailE m') ->
  m' = m /\ all_ext (firstn (11 - cnt) (rem d n i)) /\ (11 - cnt <= List.length (rem d n i))%nat.
Proof.
  induction fuel as [|fuel IH]; intros d n i arr cnt m' Hb Hn Hc H; cbn [ext_loop_e] in H; [discriminate|].
  destruct (Nat.ltb_spec i n) as [Hin|]; [|discriminate].
  rewrite rd_ok in H by lia. cbn [bind] in H.
  pose proof (bytes_nth d i Hb ltac:(lia)) as HB. rewrite (land80 _ HB) in H.
  destruct (Z.ltb_spec (nth i d 0) 128) as [|Hx]; cbn [negb] in H; [discriminate|].
  rewrite rem_step by lia.
  destruct (Nat.leb_spec 10 cnt) as [H10|H10].
  - injection H as <-. replace (11 - cnt)%nat with 1%nat by lia. cbn [firstn List.length].
    split; [reflexivity|]. split; [repeat constructor; exact Hx|lia].
  - destruct (rd d (i + 1)) as [x|] eqn:Er; cbn [bind] in H; [|discriminate].
    destruct (wr arr cnt x) as [arr'|] eqn:Ew; cbn [bind] in H; [|discriminate].
    apply IH in H; [|assumption|lia|lia]. destruct H as (-> & H1 & H2).
    replace (11 - cnt)%nat with (S (11 - (cnt + 1))) by lia. cbn [firstn List.length].
    split; [reflexivity|]. split; [constructor; assumption|lia].
Qed.
Lemma ext_loop_goes m : forall fuel d n i arr cnt arr' cnt' i', bytes d -> (n <= List.length d)%nat -> (cnt <= 10)%nat ->
  (i <= n)%nat ->
  ext_loop_e m fuel d n i arr cnt = Ok (GoE (arr', cnt', i')) ->
  (i' = n /\ all_ext (rem d n i) /\ (List.length (rem d n i) + cnt <= 10)%nat) \/
  (exists b ext, (i' < n)%nat /\ rem d n i = b :: ext ++ rem d n (i' + 1) /\ chained b ext /\ (cnt + List.length ext <= 10)%nat
     /\ i' = (i + List.length ext)%nat).
Proof.
  induction fuel as [|fuel IH]; intros d n i arr cnt arr' cnt' i' Hb Hn Hc Hi H; cbn [ext_loop_e] in H; [discriminate|].
  destruct (Nat.ltb_spec i n) as [Hin|Hin].
  2:{ injection H as <- <- <-. left. rewrite rem_end by lia. split; [lia|]. split; [constructor|cbn; lia]. }
  rewrite rd_ok in H by lia. cbn [bind] in H.
  pose proof (bytes_nth d i Hb ltac:(lia)) as HB. rewrite (land80 _ HB) in H.
  rewrite rem_step by lia.
  destruct (Z.ltb_spec (nth i d 0) 128) as [Hx|Hx]; cbn [negb] in H.
  { injection H as <- <- <-. right. exists (nth i d 0), []. cbn [app chained List.length]. repeat (split; [lia || reflexivity|]). lia. }
  destruct (Nat.leb_spec 10 cnt) as [H10|H10]; [discriminate|].
  destruct (rd d (i + 1)) as [x|] eqn:Er; cbn [bind] in H; [|discriminate].
  destruct (wr arr cnt x) as [arr1|] eqn:Ew; cbn [bind] in H; [|discriminate].
  apply IH in H; [|assumption|lia|lia|lia]. destruct H as [(-> & H1 & H2)|(b & ext & Hlt & E & Ch & L & ->)].
  - left. split; [reflexivity|]. split; [constructor; assumption|cbn [List.length]; lia].
  - right. exists (nth i d 0), (b :: ext). cbn [app chained List.length]. rewrite <- E.
    split; [lia|]. split; [reflexivity|]. split; [split; [lia|exact Ch]|lia].
Qed.

Lemma in_cut1 : In (cstr "Too long variable length VIF.") cut_texts. Proof. left. reflexivity. Qed.
Lemma in_cut2 : In (cstr "Premature end of record at variable length VIF.") cut_texts. Proof. right. left. reflexivity. Qed.
Lemma in_cut3 : In (cstr "Premature end of record at VIF.") cut_texts. Proof. right. right. left. reflexivity. Qed.

Lemma vif_cut d n c : bytes d -> (n <= List.length d)%nat ->
  match parse_vif_e d n n c with
  | Ok (FailE m) => In m cut_texts
  | Ok (GoE (v, c', i')) => i' = (n + 1)%nat
  | UB => True
  end.
Proof.
  intros Hb Hn. unfold parse_vif_e. destruct (rd d n) as [v|]; cbn [bind]; [|exact I].
  destruct (Z.land v 127 =? 124); [|reflexivity].
  destruct (rd d (n + 1)) as [len|]; cbn [bind]; [|exact I].
  destruct (128 <? len); [exact in_cut1|].
  destruct (Nat.ltb_spec n (n + 1 + 1 + Z.to_nat len)); [exact in_cut2|lia].
Qed.
Lemma vife_cut d n v a : match parse_vife_e d n (n + 1) v a with
  | Ok (FailE m) => False | Ok (GoE (a', c', i')) => (n < i')%nat | UB => True end.
Proof.
  unfold parse_vife_e. destruct (negb (Z.land v 128 =? 0)); [|lia].
  destruct (rd d (n + 1)) as [b|]; cbn [bind]; [|exact I].
  destruct (wr a 0 b) as [a1|]; cbn [bind]; [|exact I]. cbn [ext_loop_e].
  destruct (Nat.ltb_spec (n + 1) n); [lia|]. cbn [ebind bind]. lia.
Qed.
(** What the VIF stage tells for a VIF inside the payload. *)
Lemma vif_inside d n i c : bytes d -> (n <= List.length d)%nat -> (i < n)%nat ->
  match parse_vif_e d n i c with
  | Ok (FailE m) =>
      exists vif, has_text vif = true /\
        ((rem d n i = [vif] /\ In m cut_texts) \/
         (exists k t, rem d n i = vif :: k :: t /\ 128 < k /\ m = cstr "Too long variable length VIF.") \/
         (exists k t, rem d n i = vif :: k :: t /\ k <= 128 /\ Z.of_nat (List.length t) < k /\
            m = cstr "Premature end of record at variable length VIF."))
  | Ok (GoE (v, c', i')) => List.length c = 128%nat ->
      is_byte v /\ (i' <= n)%nat /\ exists w, rem d n i = v :: w ++ rem d n i' /\ text_part v w
  | UB => True
  end.
Proof.
  intros Hb Hn Hi. unfold parse_vif_e. rewrite rd_ok by lia. cbn [bind].
  pose proof (bytes_nth d i Hb ltac:(lia)) as HB. rewrite (land7F _ HB).
  rewrite (rem_step d n i) by lia. set (v := nth i d 0) in *.
  assert (Ht : (v mod 128 =? 124) = has_text v) by reflexivity. rewrite Ht.
  destruct (has_text v) eqn:Et.
  2:{ intros _. split; [exact HB|]. split; [lia|]. exists []. split; [reflexivity|]. unfold text_part. rewrite Et. reflexivity. }
  destruct (Nat.lt_ge_cases (i + 1) n) as [Hi1|Hi1].
  - rewrite rd_ok by lia. cbn [bind]. rewrite (rem_step d n (i + 1)) by lia.
    pose proof (bytes_nth d (i + 1) Hb ltac:(lia)) as HK. set (k := nth (i + 1) d 0) in *. unfold is_byte in HK.
    destruct (Z.ltb_spec 128 k) as [H1|H1].
    { exists v. split; [exact Et|]. right. left. eauto. }
    destruct (Nat.ltb_spec n (i + 1 + 1 + Z.to_nat k)) as [H2|H2].
    { exists v. split; [exact Et|]. right. right. exists k, (rem d n (i + 1 + 1)). rewrite rem_length by lia. repeat split; lia. }
    destruct (mbus_data_str_decode c (skipn (i + 1 + 1) d) (Z.to_nat k)) as [c'|] eqn:Es; cbn [bind]; [|exact I].
    intros Hc.
    assert (Hk : k < 128).
    { destruct (Z.eq_dec k 128) as [E|]; [|lia]. exfalso. unfold mbus_data_str_decode in Es.
      rewrite wr_UB in Es by (rewrite Hc; lia). discriminate. }
    split; [exact HB|]. split; [lia|].
    exists (k :: firstn (Z.to_nat k) (rem d n (i + 1 + 1))). cbn [app].
    rewrite <- (rem_skip d n (i + 1 + 1) (Z.to_nat k)) by lia. rewrite firstn_skipn.
    split; [reflexivity|]. unfold text_part. rewrite Et. do 2 eexists. split; [reflexivity|].
    rewrite firstn_length, rem_length by lia. lia.
  - rewrite (rem_end d n (i + 1)) by lia.
    destruct (rd d (i + 1)) as [k|]; cbn [bind]; [|exact I].
    destruct (128 <? k). { exists v. split; [exact Et|]. left. split; [reflexivity|exact in_cut1]. }
    destruct (Nat.ltb_spec n (i + 1 + 1 + Z.to_nat k)); [|lia].
    exists v. split; [exact Et|]. left. split; [reflexivity|exact in_cut2].
Qed.
Lemma vife_inside d n i v a : bytes d -> is_byte v -> (n <= List.length d)%nat -> (i <= n)%nat ->
  match parse_vife_e d n i v a with
  | Ok (FailE m) => m = cstr "Too many VIFE." /\ 128 <= v /\ all_ext (firstn 10 (rem d n i)) /\ (10 <= List.length (rem d n i))%nat
  | Ok (GoE (a', c', i')) =>
      ((n < i')%nat /\ 128 <= v /\ all_ext (rem d n i) /\ (List.length (rem d n i) <= 9)%nat) \/
      ((i' <= n)%nat /\ exists vifes, rem d n i = vifes ++ rem d n i' /\ whole v vifes)
  | UB => True
  end.
Proof.
  intros Hb Hv Hn Hi. unfold parse_vife_e. rewrite (land80 _ Hv).
  destruct (Z.ltb_spec v 128) as [H1|H1]; cbn [negb].
  { right. split; [lia|]. exists []. split; [reflexivity|]. split; [exact H1|cbn; lia]. }
  destruct (rd d i) as [b|] eqn:Eb; cbn [bind]; [|exact I].
  destruct (wr a 0 b) as [a1|]; cbn [bind]; [|exact I].
  destruct (ext_loop_e (cstr "Too many VIFE.") (S (List.length d)) d n i a1 1) as [[[[a' c'] i']|m]|] eqn:El; cbn [ebind bind]; [| |exact I].
  - apply ext_loop_goes in El; [|assumption|lia|lia|lia].
    destruct El as [(-> & A1 & A2)|(x & ext & Hlt & E & Ch & L & ->)].
    + left. repeat split; try lia. exact A1.
    + right. split; [lia|]. exists (x :: ext). split; [rewrite E at 1; reflexivity|].
      split; [cbn [chained]; split; assumption|cbn [List.length]; lia].
  - apply ext_loop_fails in El; [|assumption|lia|lia]. destruct El as (-> & A1 & A2). auto.
Qed.

Lemma record_names d n i m : bytes d -> (n <= List.length d)%nat -> (i < n)%nat ->
  parse_record_e d n i = Ok (FailE m) ->
  record_fault (rem d n i) m \/ (cut_at_vif (rem d n i) /\ In m cut_texts).
Proof.
  intros Hb Hn Hi H. unfold parse_record_e in H. rewrite rd_ok in H by lia. cbn [bind] in H.
  pose proof (bytes_nth d i Hb ltac:(lia)) as HB. set (dif := nth i d 0) in *.
  assert (Hhd : forall x y, rem d n i = x :: y -> x = dif) by (intros x y E0; rewrite rem_step in E0 by lia; fold dif in E0; congruence).
  destruct (ext_loop_e (cstr "Too many DIFE.") (S (List.length d)) d n i (r_dife rec_new) 0) as [[[[a c] i1]|m1]|] eqn:El;
    cbn [ebind bind] in H; [| |discriminate].
  2:{ injection H as <-. apply ext_loop_fails in El; [|assumption|lia|lia]. destruct El as (-> & A1 & A2). left.
      apply RF_many_dife; [exact A1|exact A2]. }
  apply ext_loop_goes in El; [|assumption|lia|lia|lia].
  destruct El as [(-> & A1 & A2)|(b & difes & Hlt & E & Ch & L & E1)].
  { destruct (Nat.ltb_spec n (n + 1)); [|lia]. injection H as <-. left. apply RF_dif; [exact A1|].
    rewrite rem_length in A2 |- * by lia. lia. }
  pose proof (Hhd _ _ E) as ->. clear Hhd.
  assert (W : whole dif difes) by (split; [exact Ch|lia]).
  destruct (Nat.ltb_spec n (i1 + 1)) as [X|_]; [lia|].
  rewrite E. set (i2 := (i1 + 1)%nat) in *.
  destruct (Nat.lt_ge_cases i2 n) as [Hj|Hj].
  2:{ assert (E2 : i2 = n) by lia. rewrite E2 in *. rewrite rem_end by lia. right. rewrite app_nil_r.
      split; [exists dif, difes; auto|].
      pose proof (vif_cut d n (r_custom rec_new) Hb Hn) as V.
      destruct (parse_vif_e d n n (r_custom rec_new)) as [[[[v cu] i3]|m3]|]; cbn [ebind bind] in H; [| |discriminate].
      2:{ injection H as <-. exact V. }
      subst i3. pose proof (vife_cut d n v (r_vife rec_new)) as V2.
      destruct (parse_vife_e d n (n + 1) v (r_vife rec_new)) as [[[[v' cu'] i4]|m4]|]; cbn [ebind bind] in H; [|contradiction|discriminate].
      destruct (Nat.ltb_spec n i4); [|lia]. injection H as <-. exact in_cut3. }
  pose proof (vif_inside d n i2 (r_custom rec_new) Hb Hn Hj) as V.
  destruct (parse_vif_e d n i2 (r_custom rec_new)) as [[[[v cu] i3]|m3]|]; cbn [ebind bind] in H; [| |discriminate].
  2:{ injection H as <-. destruct V as (vif & Ht & [(Er & Hm)|[(k & t & Er & Hk & Hm)|(k & t & Er & Hk & Hl & Hm)]]); rewrite Er.
      - right. split; [exists dif, difes; split; [exact W|right; exists vif; auto]|exact Hm].
      - left. rewrite Hm. apply RF_long_text; assumption.
      - left. rewrite Hm. apply RF_text; assumption. }
  specialize (V ltac:(apply repeat_length)). destruct V as (Hv & Hi3 & w & Er & Hw). rewrite Er. clear Er.
  pose proof (vife_inside d n i3 v (r_vife rec_new) Hb Hv Hn Hi3) as V.
  destruct (parse_vife_e d n i3 v (r_vife rec_new)) as [[[[v' cu'] i4]|m4]|]; cbn [ebind bind] in H; [| |discriminate].
  2:{ injection H as <-. destruct V as (-> & V1 & V2 & V3). left. apply RF_many_vife; assumption. }
  destruct V as [(V0 & V1 & V2 & V3)|(V0 & vifes & Er & Wv)].
  { destruct (Nat.ltb_spec n i4); [|lia]. injection H as <-. left. apply RF_vif; assumption. }
  destruct (Nat.ltb_spec n i4) as [X|_]; [lia|]. rewrite Er. clear Er. left.
  rewrite (land0F _ HB) in H. destruct (Z.eqb_spec (dif mod 16) 13) as [E13|E13].
  - destruct (Nat.lt_ge_cases i4 n) as [Hl|Hl].
    + rewrite rd_ok in H by lia. cbn [bind] in H. rewrite (rem_step d n i4) by lia.
      pose proof (bytes_nth d i4 Hb ltac:(lia)) as HL. set (lv := nth i4 d 0) in *.
      rewrite (difsize_ok _ HB), (difsize_13 _ E13) in H. change (Z.of_nat 0) with 0 in H. rewrite (lvar_ok _ HL) in H.
      pose proof (lvar_range _ HL) as HR.
      destruct (Nat.ltb_spec n (i4 + Z.to_nat (lvar_size lv + 1))) as [Hs|Hs].
      * injection H as <-. apply RF_lvar; try assumption. rewrite rem_length by lia. lia.
      * destruct (copy_loop _ _ 0 d i4); discriminate.
    + assert (i4 = n) as -> by lia. rewrite rem_end by lia. rewrite app_nil_r.
      destruct (rd d n) as [lv|] eqn:Erd; cbn [bind] in H; [|discriminate].
      destruct (n <? n + Z.to_nat (lvar_len lv (mbus_dif_datalength_lookup dif)))%nat.
      * injection H as <-. apply RF_no_lvar; assumption.
      * destruct (copy_loop _ _ 0 d n); discriminate.
  - cbn [bind] in H. rewrite (difsize_ok _ HB), Nat2Z.id in H.
    destruct (Nat.ltb_spec n (i4 + dif_size dif)) as [Hs|Hs].
    + injection H as <-. apply RF_data; try assumption. rewrite rem_length by lia. lia.
    + destruct (copy_loop _ _ 0 d i4); discriminate.
Qed.
