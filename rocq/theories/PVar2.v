(** Proofs about the payload parser, second half: the list parser against the specified encoding,
    and the theorems about mbus_data_variable_parse. *)
From Verif Require Import CBase PBase MFrame MCodec PCodec PCodec2 MVar SVar PVar.

(** ** One record *)
Lemma chained_pchain : forall ext b cap suf, chained b ext -> (length ext <= cap)%nat ->
  pchain cap (b :: ext ++ suf) = Some (ext, suf).
Proof.
  induction ext as [|e t IH]; intros b cap suf Hc Hl; cbn [chained length app pchain] in *.
  - destruct (Z.ltb_spec b 128); [reflexivity|lia].
  - destruct Hc as [Hb Hc]. destruct (Z.ltb_spec b 128); [lia|].
    destruct cap as [|cap]; [lia|]. 
    specialize (IH e cap suf Hc ltac:(lia)). cbn [pchain app] in IH. rewrite IH. reflexivity.
Qed.
Lemma pchain_chained : forall l cap b t es r, l = b :: t -> pchain cap l = Some (es, r) ->
  chained b es /\ t = es ++ r /\ (length es <= cap)%nat.
Proof.
  induction l as [|b' t' IH]; intros cap b t es r E H; [discriminate|]. injection E as -> ->.
  cbn [pchain] in H. destruct (Z.ltb_spec b 128).
  - injection H as <- <-. cbn. repeat split; auto; lia.
  - destruct cap as [|cap]; [discriminate|]. destruct t as [|e t2]; [discriminate|].
    destruct (pchain cap (e :: t2)) as [[es' r']|] eqn:Ep; [|discriminate]. injection H as <- <-.
    destruct (IH cap e t2 es' r' eq_refl Ep) as (A & B & C). subst t2. cbn [chained length]. repeat split; auto; lia.
Qed.

Lemma bytes_enc_parts a : bytes (enc_rec a) -> is_byte (a_dif a) /\ is_byte (a_vif a) /\ bytes (a_value a).
Proof.
  unfold enc_rec. rewrite bytes_cons, bytes_app, bytes_cons, !bytes_app. tauto.
Qed.

Lemma rp_enc a suf : wf_rec a -> rp (enc_rec a ++ suf) = Ok (Go (a, suf)).
Proof.
  intros (H1 & H2 & H3 & Hd & Hdl & Hv & Hvl & Ht & Htx & Hval & Hb).
  pose proof (bytes_enc_parts a Hb) as (HBd & HBv & HBval).
  destruct a as [dif difes vif text vifes value]. cbn [a_dif a_difes a_vif a_text a_vifes a_value] in *.
  unfold rp, enc_rec. cbn [a_dif a_difes a_vif a_text a_vifes a_value].
  set (tx := if has_text vif then Z.of_nat (length text) :: rev text else []).
  replace ((dif :: difes ++ vif :: tx ++ vifes ++ value) ++ suf)
    with (dif :: difes ++ (vif :: tx ++ (vifes ++ (value ++ suf)))).
  2:{ cbn [app]. rewrite <- !app_assoc. cbn [app]. rewrite <- !app_assoc. reflexivity. }
  rewrite chained_pchain by assumption.
  assert (Et : ptext vif (tx ++ vifes ++ value ++ suf) = Ok (Go (text, vifes ++ value ++ suf))).
  { unfold ptext, tx. destruct (has_text vif) eqn:E.
    - cbn [app]. destruct (Z.ltb_spec 128 (Z.of_nat (length text))); [lia|].
      rewrite Nat2Z.id, app_length, rev_length.
      destruct (Nat.ltb_spec (length text + length (vifes ++ value ++ suf)) (length text)); [lia|].
      destruct (Z.eqb_spec (Z.of_nat (length text)) 128); [lia|].
      rewrite (firstn_app_exact (rev text)), (skipn_app_exact (rev text)) by (rewrite rev_length; reflexivity).
      rewrite rev_involutive. reflexivity.
    - rewrite (Htx eq_refl). reflexivity. }
  rewrite Et. cbn [sbind bind].
  assert (Ev : pvife vif (vifes ++ value ++ suf) = Some (vifes, value ++ suf)).
  { unfold pvife. destruct vifes as [|e t]; cbn [chained app length] in *.
    - destruct (Z.ltb_spec vif 128); [reflexivity|lia].
    - destruct Hv as [Hv1 Hv2]. destruct (Z.ltb_spec vif 128); [lia|].
      rewrite (chained_pchain t e 9) by (assumption || lia). reflexivity. }
  rewrite Ev. cbn [hd].
  assert (Ek : psize dif (value ++ suf) = length value).
  { unfold psize, value_fits in *. destruct (dif mod 16 =? 13).
    - destruct Hval as (b & w & -> & Hw). cbn [app length].
      rewrite <- Hw. lia.
    - symmetry. assumption. }
  rewrite Ek, app_length.
  destruct (Nat.ltb_spec (length value + length suf) (length value)); [lia|].
  rewrite (firstn_app_exact value), (skipn_app_exact value) by reflexivity. reflexivity.
Qed.

Lemma rp_inv l a r : bytes l -> hd 0 l <> 0x0F -> hd 0 l <> 0x1F -> hd 0 l <> 0x2F ->
  rp l = Ok (Go (a, r)) -> l = enc_rec a ++ r /\ wf_rec a.
Proof.
  intros Hb N1 N2 N3 H. unfold rp in H.
  destruct (pchain 10 l) as [[difes [|vif l2]]|] eqn:Ep; try discriminate.
  destruct l as [|dif l']; [discriminate|]. cbn [hd] in *.
  destruct (pchain_chained _ _ _ _ _ _ eq_refl Ep) as (Cd & -> & Ld).
  destruct (ptext vif l2) as [[[text l3]|]|] eqn:Et; cbn [sbind bind] in H; try discriminate.
  destruct (pvife vif l3) as [[vifes l4]|] eqn:Ev; [|discriminate].
  destruct (Nat.ltb_spec (length l4) (psize dif l4)) as [Hk|Hk]; [discriminate|].
  injection H as <- <-.
  rewrite bytes_cons, bytes_app, bytes_cons in Hb. destruct Hb as (Bd & Bds & Bv & B2).
  assert (T : l2 = (if has_text vif then Z.of_nat (length text) :: rev text else []) ++ l3
              /\ (length text <= 127)%nat /\ (has_text vif = false -> text = [])).
  { unfold ptext in Et. destruct (has_text vif).
    - destruct l2 as [|len t]; [discriminate|].
      destruct (Z.ltb_spec 128 len); [discriminate|].
      destruct (Nat.ltb_spec (length t) (Z.to_nat len)); [discriminate|].
      destruct (Z.eqb_spec len 128); [discriminate|]. injection Et as <- <-.
      rewrite bytes_cons in B2. unfold is_byte in B2.
      rewrite rev_length, rev_involutive, firstn_length, Nat.min_l by lia.
      rewrite Z2Nat.id by lia. cbn [app]. rewrite firstn_skipn. repeat split; try reflexivity; try lia.
    - injection Et as <- <-. cbn. repeat split; auto; lia. }
  destruct T as (-> & Tl & Tn).
  assert (V : l3 = vifes ++ l4 /\ chained vif vifes /\ (length vifes <= 10)%nat).
  { unfold pvife in Ev. destruct (Z.ltb_spec vif 128).
    - injection Ev as <- <-. cbn. repeat split; auto; lia.
    - destruct l3 as [|e t]; [discriminate|].
      destruct (pchain 9 (e :: t)) as [[es r']|] eqn:E9; [|discriminate]. injection Ev as <- <-.
      destruct (pchain_chained _ _ _ _ _ _ eq_refl E9) as (A & -> & C). cbn [app chained length]. repeat split; auto; lia. }
  destruct V as (-> & Vc & Vl).
  assert (EQ : dif :: difes ++ vif :: (if has_text vif then Z.of_nat (length text) :: rev text else []) ++ vifes ++ l4
    = enc_rec (mkA dif difes vif text vifes (firstn (psize dif l4) l4)) ++ skipn (psize dif l4) l4).
  { unfold enc_rec. cbn [a_dif a_difes a_vif a_text a_vifes a_value app].
    rewrite <- !app_assoc. cbn [app]. rewrite <- !app_assoc. rewrite firstn_skipn. reflexivity. }
  split; [exact EQ|].
  unfold wf_rec. cbn [a_dif a_difes a_vif a_text a_vifes a_value].
  repeat (split; [assumption|]). split.
  - unfold value_fits. unfold psize in *. destruct (dif mod 16 =? 13).
    + destruct l4 as [|b w]; [cbn in Hk; lia|].
      rewrite !bytes_app, bytes_cons in B2. destruct B2 as (_ & _ & Bb & _).
      pose proof (lvar_range _ Bb).
      replace (Z.to_nat (lvar_size b + 1)) with (S (Z.to_nat (lvar_size b))) in * by lia.
      cbn [length] in Hk. exists b, (firstn (Z.to_nat (lvar_size b)) w). split; [reflexivity|].
      rewrite firstn_length. lia.
    + rewrite firstn_length. lia.
  - assert (B : bytes (dif :: difes ++ vif :: (if has_text vif then Z.of_nat (length text) :: rev text else []) ++ vifes ++ l4)).
    { rewrite bytes_cons, bytes_app, bytes_cons. auto. }
    rewrite EQ, bytes_app in B. tauto.
Qed.

(** ** The record loop on the remaining bytes *)
Fixpoint ploop (fuel : nat) (l : list Z) : res (bool * list item * tail) :=
  match fuel with
  | O => UB
  | S fuel' =>
      match l with
      | [] => Ok (true, [], None)
      | b :: t =>
          if b =? 0x2F then
            let* (ok, its, tl) := ploop fuel' t in Ok (ok, Filler :: its, tl)
          else if (b =? 0x0F) || (b =? 0x1F) then
            if (234 <? length t)%nat then UB else Ok (true, [], Some (b =? 0x1F, t))
          else
            let* s := rp l in
            match s with
            | Fail => Ok (false, [], None)
            | Go (a, r) => let* (ok, its, tl) := ploop fuel' r in Ok (ok, Data a :: its, tl)
            end
      end
  end.

Lemma records_loop_spec : forall fuel d n i dv,
  bytes d -> (n <= length d)%nat -> (i <= n)%nat -> (n - i < fuel)%nat ->
  match ploop fuel (rem d n i) with
  | Ok (ok, its, t) =>
      records_loop fuel d n i dv
      = Ok (if ok then 0 else -1,
            mkVar (v_header dv) (v_records dv ++ objs its ++ objs_tail t)
                  (v_nrecords dv + Z.of_nat (length (objs its ++ objs_tail t)))
                  (if more_flag t =? 1 then 1 else v_more dv))
      \/ (ok = false /\ records_loop fuel d n i dv = UB /\ (length d <= n + 1)%nat)
  | UB => records_loop fuel d n i dv = UB
  end.
Proof.
  induction fuel as [|fuel IH]; intros d n i dv Hb Hn Hi Hf; [lia|].
  cbn [records_loop ploop].
  destruct (Nat.ltb_spec i n) as [Hin|Hin].
  2:{ rewrite rem_end by lia. left. cbn [objs flat_map objs_tail app length]. rewrite app_nil_r, Z.add_0_r.
      destruct dv; reflexivity. }
  pose proof (bytes_nth d i Hb ltac:(lia)) as HB.
  rewrite rd_ok by lia. cbn [bind]. rewrite (landFF _ HB).
  pose proof (parse_record_spec d n i Hb Hn Hin) as HR.
  assert (Erem : rem d n i = nth i d 0 :: rem d n (i + 1)) by (apply rem_step; lia).
  rewrite Erem in HR |- *. set (b := nth i d 0) in *.
  destruct (Z.eqb_spec b 47) as [E2F|E2F].
  { specialize (IH d n (i + 1)%nat dv Hb Hn ltac:(lia) ltac:(lia)).
    destruct (ploop fuel (rem d n (i + 1))) as [[[ok its] t]|]; cbn [bind].
    - exact IH.
    - exact IH. }
  destruct ((b =? 15) || (b =? 31)) eqn:Eb.
  { unfold parse_rest. cbn [rec_new r_dife r_vife r_custom r_data].
    rewrite rem_length by lia.
    destruct (Nat.ltb_spec 234 (n - (i + 1))) as [Hbig|Hbig].
    - destruct (n - (i + 1))%nat as [|m] eqn:Em; [lia|].
      destruct (copy_loop (S m) (repeat 0 234) 0 d (i + 1)) as [x|] eqn:Ec; [|reflexivity].
      apply copy_loop_inv in Ec. rewrite repeat_length in Ec. lia.
    - rewrite copy_pad by lia. cbn [bind].
      destruct fuel as [|fuel]; [lia|]. cbn [records_loop].
      destruct (Nat.ltb_spec (i + 1 + (n - (i + 1))) n); [lia|]. left.
      cbn [v_header v_records v_nrecords v_more objs flat_map objs_tail app length].
      assert (Ed : b = tail_dif (b =? 31)) by (unfold tail_dif; destruct (Z.eqb_spec b 31); lia).
      f_equal. f_equal. f_equal.
      + f_equal. f_equal. unfold obj_block. rewrite <- Ed.
        assert (Er : firstn (n - (i + 1)) (skipn (i + 1) d) = rem d n (i + 1)) by reflexivity.
        rewrite Er, rem_length by lia. reflexivity.
      + unfold more_flag. destruct (b =? 31); reflexivity. }
  destruct (rp (b :: rem d n (i + 1))) as [[[a r]|]|] eqn:Er; cbn [bind].
  - destruct HR as (HR & Sr & Hlt). rewrite HR. cbn [bind].
    set (i' := (n - length r)%nat) in *.
    specialize (IH d n i' (mkVar (v_header dv) (v_records dv ++ [obj a]) (v_nrecords dv + 1) (v_more dv)) Hb Hn ltac:(lia) ltac:(lia)).
    rewrite <- Sr in IH.
    destruct (ploop fuel r) as [[[ok its] t]|]; cbn [bind].
    + destruct IH as [IH|(A & B & C)]; [left|right; auto]. rewrite IH.
      cbn [v_header v_records v_nrecords v_more objs flat_map objs_item app length].
      rewrite <- app_assoc. cbn [app]. fold (objs its). f_equal. f_equal. f_equal. lia.
    + exact IH.
  - destruct HR as [HR|[HR Hl]]; rewrite HR; cbn [bind].
    + left. cbn [objs flat_map objs_tail app length more_flag]. rewrite app_nil_r, Z.add_0_r. destruct dv; reflexivity.
    + right. auto.
  - rewrite HR. reflexivity.
Qed.

Lemma rp_shorter l a r : rp l = Ok (Go (a, r)) -> (length r < length l)%nat.
Proof.
  intros H. unfold rp in H.
  destruct (pchain 10 l) as [[difes [|vif l2]]|] eqn:Ep; try discriminate.
  apply pchain_len in Ep. cbn [length] in Ep.
  destruct (ptext vif l2) as [[[text l3]|]|] eqn:Et; cbn [sbind bind] in H; try discriminate.
  destruct (pvife vif l3) as [[vifes l4]|] eqn:Ev; [|discriminate].
  destruct (Nat.ltb (length l4) (psize (hd 0 l) l4)); [discriminate|]. injection H as <- <-.
  assert (length l3 <= length l2)%nat.
  { unfold ptext in Et. destruct (has_text vif); [|injection Et as _ <-; lia].
    destruct l2 as [|len t]; [discriminate|].
    destruct (128 <? len); [discriminate|]. destruct (length t <? Z.to_nat len)%nat; [discriminate|].
    destruct (len =? 128); [discriminate|]. injection Et as <- <-. rewrite skipn_length. cbn [length]. lia. }
  assert (length l4 <= length l3)%nat.
  { unfold pvife in Ev. destruct (vif <? 128); [injection Ev as _ <-; lia|].
    destruct l3 as [|e t]; [discriminate|].
    destruct (pchain 9 (e :: t)) as [[es r']|] eqn:E9; [|discriminate]. injection Ev as <- <-.
    apply pchain_len in E9. lia. }
  rewrite skipn_length. lia.
Qed.

(** Items in front are consumed one by one, whatever follows. *)
Lemma enc_item_len it : wf_item it -> (1 <= length (enc_item it))%nat.
Proof. destruct it; cbn; lia. Qed.
Lemma ploop_items : forall its rest fuel, Forall wf_item its ->
  (length (flat_map enc_item its ++ rest) < fuel)%nat ->
  exists fuel', (length rest < fuel')%nat /\ ploop fuel (flat_map enc_item its ++ rest)
    = let* (ok, its', t) := ploop fuel' rest in Ok (ok, its ++ its', t).
Proof.
  induction its as [|it its IH]; intros rest fuel Hw Hf; cbn [flat_map app] in *.
  - exists fuel. split; [assumption|]. destruct (ploop fuel rest) as [[[? ?] ?]|]; reflexivity.
  - inversion_clear Hw as [|? ? W1 W2]. rewrite <- app_assoc in Hf |- *. rewrite app_length in Hf.
    pose proof (enc_item_len it W1) as L1.
    destruct fuel as [|fuel]; [lia|].
    destruct (IH rest fuel W2 ltac:(lia)) as (f' & Hf' & E). exists f'. split; [assumption|].
    destruct it as [|a]; cbn [enc_item app ploop].
    + change (47 =? 47) with true. cbv iota. rewrite E.
      destruct (ploop f' rest) as [[[? ?] ?]|]; reflexivity.
    + cbn [wf_item] in W1. pose proof (rp_enc a (flat_map enc_item its ++ rest) W1) as Er.
      destruct W1 as (N1 & N2 & N3 & _).
      assert (Eh : exists t, enc_rec a = a_dif a :: t) by (unfold enc_rec; eauto). destruct Eh as (t & Eh).
      rewrite Eh in Er |- *. cbn [app ploop] in *.
      destruct (Z.eqb_spec (a_dif a) 47); [contradiction|].
      destruct (Z.eqb_spec (a_dif a) 15); [contradiction|].
      destruct (Z.eqb_spec (a_dif a) 31); [contradiction|]. cbn [orb].
      rewrite Er. cbn [bind]. rewrite E. destruct (ploop f' rest) as [[[? ?] ?]|]; reflexivity.
Qed.

Lemma ploop_tail t fuel : wf_tail t -> (0 < fuel)%nat -> ploop fuel (enc_tail t) = Ok (true, [], t).
Proof.
  intros Hw Hf. destruct fuel as [|fuel]; [lia|].
  destruct t as [[more b]|]; [|reflexivity]. cbn [enc_tail ploop wf_tail] in *.
  destruct (Nat.ltb_spec 234 (length b)); [lia|].
  destruct more; reflexivity.
Qed.

Lemma ploop_inv : forall fuel l ok its t, bytes l -> ploop fuel l = Ok (ok, its, t) ->
  Forall wf_item its /\ wf_tail t /\
  exists rest, l = enc_body its t ++ rest /\ (if ok then rest = [] else t = None /\ rest <> []).
Proof.
  induction fuel as [|fuel IH]; intros l ok its t Hb H; [discriminate|]. cbn [ploop] in H.
  destruct l as [|b l].
  { injection H as <- <- <-. split; [constructor|]. split; [exact I|]. exists []. auto. }
  rewrite bytes_cons in Hb. destruct Hb as [Bb Bl].
  destruct (Z.eqb_spec b 47) as [->|N47].
  { destruct (ploop fuel l) as [[[ok' its'] t']|] eqn:E; [|discriminate]. injection H as <- <- <-.
    destruct (IH _ _ _ _ Bl E) as (W & Wt & rest & El & Hr).
    split; [constructor; [exact I|assumption]|]. split; [assumption|]. exists rest. split; [|assumption].
    rewrite El. reflexivity. }
  destruct ((b =? 15) || (b =? 31)) eqn:Eb.
  { destruct (Nat.ltb_spec 234 (length l)); [discriminate|]. injection H as <- <- <-.
    split; [constructor|]. split; [cbn; auto|]. exists []. split; [|reflexivity].
    unfold enc_body. cbn [flat_map enc_tail app]. rewrite app_nil_r. f_equal. unfold tail_dif.
    destruct (Z.eqb_spec b 31); lia. }
  destruct (rp (b :: l)) as [[[a r]|]|] eqn:Er; cbn [bind] in H; try discriminate.
  - destruct (ploop fuel r) as [[[ok' its'] t']|] eqn:E; [|discriminate]. injection H as <- <- <-.
    destruct (rp_inv (b :: l) a r ltac:(rewrite bytes_cons; auto) ltac:(cbn [hd]; lia) ltac:(cbn [hd]; lia) ltac:(cbn [hd]; lia) Er) as [El Wa].
    assert (Br : bytes r). { assert (B : bytes (b :: l)) by (rewrite bytes_cons; auto). rewrite El, bytes_app in B. tauto. }
    destruct (IH _ _ _ _ Br E) as (W & Wt & rest & E2 & Hr).
    split; [constructor; assumption|]. split; [assumption|]. exists rest. split; [|assumption].
    rewrite El, E2. unfold enc_body. cbn [flat_map enc_item]. rewrite <- !app_assoc. reflexivity.
  - injection H as <- <- <-. split; [constructor|]. split; [exact I|]. exists (b :: l). split; [reflexivity|].
    split; [reflexivity|discriminate].
Qed.

(** When the list parser is undefined. *)
Lemma skipn_cons_nth (l : list Z) : forall k b t, skipn k l = b :: t -> nth k l 0 = b /\ (length t = length l - k - 1)%nat /\ (k < length l)%nat /\ skipn (k + 1) l = t.
Proof.
  induction l as [|h l IH]; intros k b t H; [rewrite skipn_nil in H; discriminate|].
  destruct k as [|k]; cbn [skipn] in H.
  - injection H as -> ->. cbn. repeat split; lia.
  - destruct (IH _ _ _ H) as (A & B & C & D). cbn [nth length Nat.add skipn]. repeat split; try assumption; lia.
Qed.
Lemma rp_UB l : bytes l -> rp l = UB -> long_text l.
Proof.
  intros Hb H. unfold rp in H.
  destruct (pchain 10 l) as [[difes [|vif l2]]|] eqn:Ep; try discriminate.
  apply pchain_skip in Ep. symmetry in Ep. apply skipn_cons_nth in Ep. destruct Ep as (E1 & E2 & E3 & E4).
  destruct (ptext vif l2) as [[[text l3]|]|] eqn:Et; cbn [sbind bind] in H; try discriminate.
  - destruct (pvife vif l3) as [[vifes l4]|]; [|discriminate].
    destruct (Nat.ltb (length l4) (psize (hd 0 l) l4)); discriminate.
  - unfold ptext in Et. destruct (has_text vif) eqn:Ev; [|discriminate].
    destruct l2 as [|len t]; [discriminate|].
    destruct (128 <? len); [discriminate|]. destruct (length t <? Z.to_nat len)%nat; [discriminate|].
    destruct (Z.eqb_spec len 128); [|discriminate]. subst len.
    apply skipn_cons_nth in E4. destruct E4 as (F1 & F2 & F3 & F4).
    exists (length difes + 1)%nat. rewrite E1. auto.
Qed.
Lemma long_text_app l1 l2 : long_text l2 -> long_text (l1 ++ l2).
Proof.
  intros (p & H1 & H2 & H3). exists (length l1 + p)%nat. rewrite app_length. split; [lia|].
  rewrite app_nth2 by lia. replace (length l1 + p - length l1)%nat with p by lia. split; [assumption|].
  rewrite app_nth2 by lia. replace (length l1 + p + 1 - length l1)%nat with (p + 1)%nat by lia. assumption.
Qed.
Lemma long_block_app l1 l2 : long_block l2 -> long_block (l1 ++ l2).
Proof.
  intros (p & H1 & H2). exists (length l1 + p)%nat. rewrite app_length.
  rewrite !app_nth2 by lia. replace (length l1 + p - length l1)%nat with p by lia. split; [assumption|lia].
Qed.
Lemma ploop_UB : forall fuel l, bytes l -> (length l < fuel)%nat -> ploop fuel l = UB -> long_text l \/ long_block l.
Proof.
  induction fuel as [|fuel IH]; intros l Hb Hf H; [lia|]. cbn [ploop] in H.
  destruct l as [|b l]; [discriminate|]. cbn [length] in Hf.
  pose proof Hb as Hb'. rewrite bytes_cons in Hb. destruct Hb as [Bb Bl].
  destruct (Z.eqb_spec b 47) as [->|N47].
  { destruct (ploop fuel l) as [[[? ?] ?]|] eqn:E; [discriminate|].
    destruct (IH l Bl ltac:(lia) E); [left; apply (long_text_app [47])|right; apply (long_block_app [47])]; assumption. }
  destruct ((b =? 15) || (b =? 31)) eqn:Eb.
  { destruct (Nat.ltb_spec 234 (length l)); [|discriminate]. right. exists 0%nat. cbn [nth length]. split; lia. }
  destruct (rp (b :: l)) as [[[a r]|]|] eqn:Er; cbn [bind] in H; try discriminate.
  - pose proof (rp_shorter _ _ _ Er) as Hs. cbn [length] in Hs.
    destruct (rp_inv (b :: l) a r Hb' ltac:(cbn [hd]; lia) ltac:(cbn [hd]; lia) ltac:(cbn [hd]; lia) Er) as [El Wa].
    assert (Br : bytes r) by (rewrite El, bytes_app in Hb'; tauto).
    destruct (ploop fuel r) as [[[? ?] ?]|] eqn:E; [discriminate|]. rewrite El.
    destruct (IH r Br ltac:(lia) E); [left; apply long_text_app|right; apply long_block_app]; assumption.
  - left. apply rp_UB; assumption.
Qed.
