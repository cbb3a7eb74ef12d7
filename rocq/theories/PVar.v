(** Proofs about the payload parser, first half: reduction of the index-based parser to a parser on the
    remaining bytes. *)
From Verif Require Import CBase PBase MFrame MCodec PCodec PCodec2 MVar SVar.

(** ** Remaining payload *)
Definition rem (d : list Z) (n i : nat) : list Z := firstn (n - i) (skipn i d).

Lemma rem_length d n i : (n <= length d)%nat -> length (rem d n i) = (n - i)%nat.
Proof. intros H. unfold rem. rewrite firstn_length, skipn_length. lia. Qed.
Lemma skipn_nth (d : list Z) : forall i, (i < length d)%nat -> skipn i d = nth i d 0 :: skipn (i + 1) d.
Proof.
  induction d as [|h t IH]; intros [|i] Hi; cbn [skipn nth length Nat.add] in *; try lia; auto.
  apply IH. lia.
Qed.
Lemma rem_step d n i : (i < n)%nat -> (n <= length d)%nat -> rem d n i = nth i d 0 :: rem d n (i + 1).
Proof.
  intros Hi Hn. unfold rem. rewrite skipn_nth by lia.
  replace (n - i)%nat with (S (n - (i + 1))) by lia. reflexivity.
Qed.
Lemma rem_end d n i : (n <= i)%nat -> rem d n i = [].
Proof. intros H. unfold rem. replace (n - i)%nat with 0%nat by lia. reflexivity. Qed.
Lemma rem_skip d n i k : (i + k <= n)%nat -> (n <= length d)%nat -> skipn k (rem d n i) = rem d n (i + k).
Proof.
  intros Hk Hn. unfold rem. rewrite skipn_firstn_comm, skipn_add.
  f_equal; [lia|]. f_equal. lia.
Qed.
Lemma rem_firstn d n i k : (i + k <= n)%nat -> firstn k (rem d n i) = firstn k (skipn i d).
Proof. intros H. unfold rem. rewrite firstn_firstn. f_equal. lia. Qed.

Lemma land80 b : is_byte b -> (Z.land b 0x80 =? 0) = (b <? 128).
Proof. intros H. apply eqb_prop. revert b H. apply byte_cases. vm_compute. reflexivity. Qed.
Lemma land7F b : is_byte b -> Z.land b 0x7F = b mod 128.
Proof. intros H. by_bytes b H. Qed.
Lemma land0F b : is_byte b -> Z.land b 0x0F = b mod 16.
Proof. intros H. by_bytes b H. Qed.
Lemma landFF b : is_byte b -> Z.land b 0xFF = b.
Proof. intros H. by_bytes b H. Qed.
Lemma difsize_ok b : is_byte b -> mbus_dif_datalength_lookup b = Z.of_nat (dif_size b).
Proof. intros H. by_bytes b H. Qed.
Lemma lvar_ok b : is_byte b -> lvar_len b 0 = lvar_size b + 1.
Proof. intros H. by_bytes b H. Qed.
Lemma lvar_range b : is_byte b -> 0 <= lvar_size b <= 191.
Proof. intros H. assert (E : (0 <=? lvar_size b) && (lvar_size b <=? 191) = true) by (revert b H; apply byte_cases; vm_compute; reflexivity). lia. Qed.
Lemma difsize_13 b : b mod 16 = 13 -> dif_size b = 0%nat.
Proof. unfold dif_size. intros ->. reflexivity. Qed.
Lemma difsize_le b : (dif_size b <= 8)%nat.
Proof.
  unfold dif_size. generalize (Z.to_nat (b mod 16)). intros k.
  do 16 (destruct k as [|k]; [cbn; lia|]). destruct k; cbn; lia.
Qed.

(** ** The parser on the remaining bytes *)
(** The byte at the head and its extension bytes; at most [cap] of these. *)
Fixpoint pchain (cap : nat) (l : list Z) {struct l} : option (list Z * list Z) :=
  match l with
  | [] => None
  | b :: t =>
      if b <? 128 then Some ([], t)
      else match cap, t with
           | S cap', e :: _ => match pchain cap' t with Some (es, r) => Some (e :: es, r) | None => None end
           | _, _ => None
           end
  end.
Definition ptext (vif : Z) (l : list Z) : res (step (list Z * list Z)) :=
  if has_text vif then
    match l with
    | [] => Ok Fail
    | len :: t => if 128 <? len then Ok Fail
                  else if (length t <? Z.to_nat len)%nat then Ok Fail
                  else if len =? 128 then UB
                  else Ok (Go (rev (firstn (Z.to_nat len) t), skipn (Z.to_nat len) t))
    end
  else Ok (Go ([], l)).
Definition pvife (vif : Z) (l : list Z) : option (list Z * list Z) :=
  if vif <? 128 then Some ([], l)
  else match l with
       | [] => None
       | e :: _ => match pchain 9 l with Some (es, r) => Some (e :: es, r) | None => None end
       end.
Definition psize (dif : Z) (l : list Z) : nat :=
  if dif mod 16 =? 13 then match l with b :: _ => Z.to_nat (lvar_size b + 1) | [] => 1%nat end
  else dif_size dif.
Definition rp (l : list Z) : res (step (arec * list Z)) :=
  match pchain 10 l with
  | Some (difes, vif :: l2) =>
      let! (text, l3) := ptext vif l2 in
      match pvife vif l3 with
      | Some (vifes, l4) =>
          let k := psize (hd 0 l) l4 in
          if (length l4 <? k)%nat then Ok Fail
          else Ok (Go (mkA (hd 0 l) difes vif text vifes (firstn k l4), skipn k l4))
      | None => Ok Fail
      end
  | _ => Ok Fail
  end.

(** ** Extension loop *)
Lemma firstn_upd l c v : (c < length l)%nat -> firstn (c + 1) (upd l c v) = firstn c l ++ [v].
Proof.
  intros H. rewrite upd_splice by lia.
  rewrite firstn_app, firstn_firstn, firstn_length.
  replace (Nat.min (c + 1) c) with c by lia. replace (c + 1 - Nat.min c (length l))%nat with 1%nat by lia.
  reflexivity.
Qed.
Lemma skipn_upd l c v k : (c < length l)%nat -> (c < k)%nat -> skipn k (upd l c v) = skipn k l.
Proof.
  intros H Hk. rewrite upd_splice by lia.
  assert (Hf : length (firstn c l) = c) by (rewrite firstn_length; lia).
  rewrite skipn_app, Hf, skipn_all2 by lia. cbn [app].
  replace (k - c)%nat with (S (k - S c)) by lia.
  change (skipn (S (k - S c)) (v :: skipn (S c) l)) with (skipn (k - S c) (skipn (S c) l)).
  rewrite skipn_add. f_equal. lia.
Qed.

Lemma pchain_len : forall l cap es r, pchain cap l = Some (es, r) -> (length l = length es + 1 + length r)%nat /\ (length es <= cap)%nat.
Proof.
  induction l as [|b t IH]; intros cap es r H; cbn [pchain] in H; [discriminate|].
  destruct (b <? 128). { injection H as <- <-. cbn. lia. }
  destruct cap as [|cap]; [discriminate|]. destruct t as [|e t']; [discriminate|].
  destruct (pchain cap (e :: t')) as [[es' r']|] eqn:E; [|discriminate].
  injection H as <- <-. apply IH in E. cbn [length] in *. lia.
Qed.

Lemma ext_loop_spec : forall fuel d n i arr cnt,
  bytes d -> (n <= length d)%nat -> (i <= n)%nat -> (n - i < fuel)%nat ->
  length arr = 10%nat -> (cnt <= 10)%nat ->
  match pchain (10 - cnt) (rem d n i) with
  | Some (es, r) =>
      ext_loop fuel d n i arr cnt
      = Ok (Go (firstn cnt arr ++ es ++ skipn (cnt + length es) arr, (cnt + length es)%nat, (n - length r - 1)%nat))
  | None => ext_loop fuel d n i arr cnt = Ok Fail
            \/ (exists arr' cnt', ext_loop fuel d n i arr cnt = Ok (Go (arr', cnt', n)))
            \/ (ext_loop fuel d n i arr cnt = UB /\ n = length d)
  end.
Proof.
  induction fuel as [|fuel IH]; intros d n i arr cnt Hb Hn Hi Hf Ha Hc; [lia|].
  cbn [ext_loop].
  destruct (Nat.ltb_spec i n) as [Hin|Hin].
  2:{ rewrite rem_end by lia. cbn [pchain]. right. left. replace i with n by lia. eauto. }
  rewrite rd_ok by lia. cbn [bind]. rewrite rem_step by lia. cbn [pchain].
  pose proof (bytes_nth d i Hb ltac:(lia)) as HB.
  rewrite (land80 _ HB).
  destruct (nth i d 0 <? 128) eqn:Eb; cbn [negb].
  - f_equal. f_equal. f_equal; [f_equal|].
    + cbn [app length]. rewrite Nat.add_0_r. symmetry. apply firstn_skipn.
    + cbn. lia.
    + rewrite rem_length by lia. lia.
  - destruct (Nat.leb_spec 10 cnt) as [H10|H10].
    { replace (10 - cnt)%nat with 0%nat by lia. left. reflexivity. }
    replace (10 - cnt)%nat with (S (10 - (cnt + 1))) by lia.
    destruct (Nat.lt_ge_cases (i + 1) n) as [Hi1|Hi1].
    + specialize (IH d n (i + 1)%nat (upd arr cnt (nth (i + 1) d 0)) (cnt + 1)%nat Hb Hn ltac:(lia) ltac:(lia)
                     ltac:(rewrite upd_length; lia) ltac:(lia)).
      rewrite rd_ok by lia. cbn [bind]. rewrite wr_ok by lia. cbn [bind].
      pose proof (rem_step d n (i + 1) Hi1 Hn) as Er.
      destruct (rem d n (i + 1)) as [|e t'] eqn:Et; [discriminate|]. injection Er as Ee _.
      destruct (pchain (10 - (cnt + 1)) (e :: t')) as [[es r]|] eqn:Ep.
      * rewrite IH. f_equal. f_equal. cbn [length].
        apply pchain_len in Ep.
        rewrite firstn_upd by lia. rewrite skipn_upd by lia. rewrite <- Ee.
        rewrite <- app_assoc. cbn [app].
        replace (cnt + 1 + length es)%nat with (cnt + S (length es))%nat by lia. reflexivity.
      * exact IH.
    + rewrite (rem_end d n (i + 1)) by lia.
      destruct (Nat.lt_ge_cases (i + 1) (length d)) as [Hd|Hd].
      * rewrite rd_ok by lia. cbn [bind]. rewrite wr_ok by lia. cbn [bind].
        destruct fuel as [|fuel]; [lia|]. cbn [ext_loop].
        destruct (Nat.ltb_spec (i + 1) n); [lia|]. right. left.
        replace (i + 1)%nat with n by lia. eauto.
      * rewrite rd_UB by lia. cbn [bind]. right. right. split; [reflexivity|lia].
Qed.

Lemma pchain_skip : forall l cap es r, pchain cap l = Some (es, r) -> r = skipn (length es + 1) l.
Proof.
  induction l as [|b t IH]; intros cap es r H; cbn [pchain] in H; [discriminate|].
  destruct (b <? 128). { injection H as <- <-. reflexivity. }
  destruct cap as [|cap]; [discriminate|]. destruct t as [|e t']; [discriminate|].
  destruct (pchain cap (e :: t')) as [[es' r']|] eqn:E; [|discriminate].
  injection H as <- <-. apply IH in E. exact E.
Qed.

(** A suffix of the remaining payload is the remaining payload at its own position. *)
Lemma rem_suffix d n i l k : (n <= length d)%nat -> (i <= n)%nat -> l = rem d n i -> (k <= length l)%nat ->
  skipn k l = rem d n (n - length (skipn k l)) /\ (n - length (skipn k l) = i + k)%nat.
Proof.
  intros Hn Hi -> Hk. rewrite rem_length in Hk by assumption.
  assert (E : (n - length (skipn k (rem d n i)) = i + k)%nat) by (rewrite skipn_length, rem_length by lia; lia).
  rewrite E. split; [|reflexivity]. apply rem_skip; lia.
Qed.

Lemma pad_splice k l : (length l <= k)%nat -> [] ++ l ++ skipn (0 + length l) (repeat 0 k) = pad k l.
Proof.
  intros H. cbn [app Nat.add]. unfold pad. f_equal.
  revert k H. induction l as [|b l IH]; intros k H; cbn [length skipn] in *; [f_equal; lia|].
  destruct k; cbn [repeat]; [lia|]. apply IH. lia.
Qed.

Lemma copy_pad k len d i : (len <= k)%nat -> (i + len <= length d)%nat ->
  copy_loop len (repeat 0 k) 0 d i = Ok (pad k (firstn len (skipn i d))).
Proof.
  intros Hk Hd. rewrite copy_loop_ok by (rewrite ?repeat_length; lia). f_equal.
  assert (E : length (firstn len (skipn i d)) = len) by (rewrite firstn_length, skipn_length; lia).
  rewrite <- (pad_splice k (firstn len (skipn i d))) by lia. rewrite E. reflexivity.
Qed.

Lemma parse_vif_spec d n i : bytes d -> (n <= length d)%nat -> (i < n)%nat ->
  let vif := nth i d 0 in
  match ptext vif (rem d n (i + 1)) with
  | Ok (Go (text, l3)) =>
      parse_vif d n i (repeat 0 128) = Ok (Go (vif, pad 128 text, (n - length l3)%nat))
      /\ l3 = rem d n (n - length l3) /\ (length text <= 127)%nat /\ (i + 1 <= n - length l3)%nat
  | Ok Fail => parse_vif d n i (repeat 0 128) = Ok Fail \/ (parse_vif d n i (repeat 0 128) = UB /\ n = length d)
  | UB => parse_vif d n i (repeat 0 128) = UB
  end.
Proof.
  intros Hb Hn Hi vif. subst vif. unfold parse_vif, ptext.
  rewrite rd_ok by lia. cbn [bind].
  pose proof (bytes_nth d i Hb ltac:(lia)) as HB.
  unfold has_text. rewrite (land7F _ HB).
  destruct (nth i d 0 mod 128 =? 0x7C) eqn:Et.
  2:{ rewrite rem_length by lia. replace (n - (n - (i + 1)))%nat with (i + 1)%nat by lia.
      split; [reflexivity|]. split; [reflexivity|]. cbn. lia. }
  destruct (Nat.lt_ge_cases (i + 1) n) as [Hi1|Hi1].
  - rewrite rem_step by lia. rewrite rd_ok by lia. cbn [bind].
    pose proof (bytes_nth d (i + 1) Hb ltac:(lia)) as HB1. set (len := nth (i + 1) d 0) in *.
    destruct (128 <? len) eqn:E1. { left. reflexivity. }
    rewrite rem_length by lia. unfold is_byte in HB1.
    destruct (Nat.ltb_spec n (i + 1 + 1 + Z.to_nat len)) as [E2|E2].
    { destruct (Nat.ltb_spec (n - (i + 1 + 1)) (Z.to_nat len)); [|lia]. left. reflexivity. }
    destruct (Nat.ltb_spec (n - (i + 1 + 1)) (Z.to_nat len)); [lia|].
    destruct (Z.eqb_spec len 128) as [E3|E3].
    + unfold mbus_data_str_decode. rewrite wr_UB by (rewrite repeat_length; lia). reflexivity.
    + rewrite str_decode_spec by (rewrite ?skipn_length, ?repeat_length; lia). cbn [bind].
      rewrite <- (rem_firstn d n) by lia.
      set (t := firstn (Z.to_nat len) (rem d n (i + 1 + 1))).
      assert (Ht : length t = Z.to_nat len) by (unfold t; rewrite firstn_length, rem_length by lia; lia).
      rewrite rem_skip by lia. rewrite rem_length by lia.
      replace (n - (n - (i + 1 + 1 + Z.to_nat len)))%nat with (i + 1 + 1 + Z.to_nat len)%nat by lia.
      split; [|split; [reflexivity|rewrite rev_length; lia]].
      f_equal. f_equal. f_equal. f_equal.
      rewrite <- (pad_splice 128 (rev t)) by (rewrite rev_length; lia). cbn [app].
      f_equal. rewrite rev_length, Ht. cbn [Nat.add].
      assert (G : forall j m, (j < m)%nat -> 0 :: skipn (S j) (repeat 0 m) = skipn j (repeat 0 m)).
      { clear. induction j as [|j IH]; intros m Hm; (destruct m as [|m]; [lia|]); [reflexivity|].
        change (skipn (S (S j)) (repeat 0 (S m))) with (skipn (S j) (repeat 0 m)).
        change (skipn (S j) (repeat 0 (S m))) with (skipn j (repeat 0 m)). apply IH. lia. }
      apply G. lia.
  - rewrite rem_end by lia.
    destruct (Nat.lt_ge_cases (i + 1) (length d)) as [Hd|Hd].
    + left. rewrite rd_ok by lia. cbn [bind].
      destruct (128 <? nth (i + 1) d 0); [reflexivity|].
      destruct (Nat.ltb_spec n (i + 1 + 1 + Z.to_nat (nth (i + 1) d 0))); [reflexivity|lia].
    + right. rewrite rd_UB by lia. split; [reflexivity|lia].
Qed.

Lemma parse_vife_spec d n i vif : bytes d -> is_byte vif -> (n <= length d)%nat -> (i <= n)%nat ->
  match pvife vif (rem d n i) with
  | Some (es, l4) =>
      parse_vife d n i vif (repeat 0 10) = Ok (Go (pad 10 es, length es, (n - length l4)%nat))
      /\ l4 = rem d n (n - length l4) /\ (length es <= 10)%nat /\ (i <= n - length l4)%nat
  | None => parse_vife d n i vif (repeat 0 10) = Ok Fail
            \/ (exists a c, parse_vife d n i vif (repeat 0 10) = Ok (Go (a, c, (n + 1)%nat)))
            \/ (parse_vife d n i vif (repeat 0 10) = UB /\ n = length d)
  end.
Proof.
  intros Hb Hv Hn Hi. unfold parse_vife, pvife. rewrite (land80 _ Hv).
  destruct (vif <? 128) eqn:Ev; cbn [negb].
  { rewrite rem_length by lia. replace (n - (n - i))%nat with i by lia.
    split; [reflexivity|]. split; [reflexivity|]. cbn. lia. }
  destruct (Nat.lt_ge_cases i n) as [Hin|Hin].
  - pose proof (ext_loop_spec (S (length d)) d n i (upd (repeat 0 10) 0 (nth i d 0)) 1 Hb Hn Hi ltac:(lia) eq_refl ltac:(lia)) as H.
    pose proof (rem_step d n i Hin Hn) as Er.
    destruct (rem d n i) as [|e t'] eqn:Et; [discriminate|].
    injection Er as Ee Er.
    rewrite rd_ok by lia. cbn [bind]. rewrite wr_ok by (cbn; lia). cbn [bind].
    change (10 - 1)%nat with 9%nat in H.
    destruct (pchain 9 (e :: t')) as [[es r]|] eqn:Ep.
    + rewrite H. cbn [sbind bind]. pose proof (pchain_len _ _ _ _ Ep) as Hl.
      pose proof (pchain_skip _ _ _ _ Ep) as Hs.
      assert (Hlen : length (e :: t') = (n - i)%nat) by (rewrite <- Et; apply rem_length; lia).
      destruct (rem_suffix d n i (e :: t') (length es + 1) Hn Hi (eq_sym Et) ltac:(lia)) as [S1 S2].
      rewrite <- Hs in S1, S2.
      replace (n - length r - 1 + 1)%nat with (n - length r)%nat by lia.
      split; [|split; [assumption|cbn [length]; lia]].
      do 4 f_equal.
      * rewrite <- Ee. rewrite <- (pad_splice 10 (e :: es)) by (cbn [length]; lia). reflexivity.
    + destruct H as [H|[(a & c & H)|[H Hd]]]; rewrite H; cbn [sbind bind]; eauto.
  - rewrite rem_end by lia.
    destruct (Nat.lt_ge_cases i (length d)) as [Hd|Hd].
    + rewrite rd_ok by lia. cbn [bind]. rewrite wr_ok by (cbn; lia). cbn [bind ext_loop].
      destruct (Nat.ltb_spec i n); [lia|]. cbn [sbind bind].
      replace i with n by lia. eauto.
    + rewrite rd_UB by lia. right. right. split; [reflexivity|lia].
Qed.

Lemma parse_record_spec d n i : bytes d -> (n <= length d)%nat -> (i < n)%nat ->
  match rp (rem d n i) with
  | Ok (Go (a, r)) => parse_record d n i = Ok (Go (obj a, (n - length r)%nat))
                      /\ r = rem d n (n - length r) /\ (i < n - length r <= n)%nat
  | Ok Fail => parse_record d n i = Ok Fail \/ (parse_record d n i = UB /\ (length d <= n + 1)%nat)
  | UB => parse_record d n i = UB
  end.
Proof.
  intros Hb Hn Hi. unfold parse_record, rp.
  rewrite rd_ok by lia. cbn [bind rec_new r_dife r_custom r_vife r_data].
  pose proof (ext_loop_spec (S (length d)) d n i (repeat 0 10) 0 Hb Hn ltac:(lia) ltac:(lia) eq_refl ltac:(lia)) as H.
  change (10 - 0)%nat with 10%nat in H.
  assert (Hhd : hd 0 (rem d n i) = nth i d 0) by (rewrite rem_step by lia; reflexivity).
  rewrite Hhd. pose proof (bytes_nth d i Hb ltac:(lia)) as HB. set (dif := nth i d 0) in *.
  destruct (pchain 10 (rem d n i)) as [[difes l1]|] eqn:Ep.
  2:{ destruct H as [H|[(a & c & H)|[H Hd]]]; rewrite H; cbn [sbind bind].
      - left. reflexivity.
      - left. destruct (Nat.ltb_spec n (n + 1)); [reflexivity|lia].
      - right. split; [reflexivity|lia]. }
  pose proof (pchain_len _ _ _ _ Ep) as Hl1. rewrite rem_length in Hl1 by lia.
  pose proof (pchain_skip _ _ _ _ Ep) as Hs1.
  destruct (rem_suffix d n i (rem d n i) (length difes + 1) Hn ltac:(lia) eq_refl ltac:(rewrite rem_length by lia; lia)) as [S1 S2].
  rewrite <- Hs1 in S1, S2. clear Hs1.
  rewrite H. cbn [sbind bind firstn]. clear H. rewrite pad_splice by lia.
  replace (n - length l1 - 1 + 1)%nat with (n - length l1)%nat by lia. cbn [Nat.add].
  set (i1 := (n - length l1)%nat) in *.
  destruct (Nat.ltb_spec n i1) as [Hx|_]; [lia|].
  destruct (Nat.lt_ge_cases i1 n) as [Hi1|Hi1].
  2:{ assert (Ei : i1 = n) by (unfold i1; lia).
      assert (l1 = []) as -> by (destruct l1; [reflexivity|unfold i1 in Hi1; cbn [length] in *; lia]).
      clearbody i1. subst i1. clear - Hb Hn.
      unfold parse_vif.
      destruct (Nat.lt_ge_cases n (length d)) as [Hd|Hd].
      2:{ rewrite rd_UB by lia. right. split; [reflexivity|lia]. }
      rewrite rd_ok by lia. cbn [bind].
      pose proof (bytes_nth d n Hb Hd) as HB. set (vif := nth n d 0) in *.
      destruct (Z.land vif 127 =? 124).
      - destruct (Nat.lt_ge_cases (n + 1) (length d)) as [Hd1|Hd1].
        2:{ rewrite rd_UB by lia. right. split; [reflexivity|lia]. }
        left. rewrite rd_ok by lia. cbn [bind].
        destruct (128 <? nth (n + 1) d 0); [reflexivity|].
        destruct (Nat.ltb_spec n (n + 1 + 1 + Z.to_nat (nth (n + 1) d 0))); [reflexivity|lia].
      - cbn [sbind bind]. unfold parse_vife.
        destruct (negb (Z.land vif 128 =? 0)).
        + destruct (Nat.lt_ge_cases (n + 1) (length d)) as [Hd1|Hd1].
          2:{ rewrite rd_UB by lia. right. split; [reflexivity|lia]. }
          left. rewrite rd_ok by lia. cbn [bind]. rewrite wr_ok by (cbn; lia). cbn [bind ext_loop].
          destruct (Nat.ltb_spec (n + 1) n); [lia|]. cbn [sbind bind].
          destruct (Nat.ltb_spec n (n + 1 + 1)); [reflexivity|lia].
        + left. cbn [sbind bind]. destruct (Nat.ltb_spec n (n + 1)); [reflexivity|lia]. }
  rewrite (rem_step d n i1) in S1 by lia. rewrite S1.
  pose proof (parse_vif_spec d n i1 Hb Hn Hi1) as Hvif. cbv zeta in Hvif.
  pose proof (bytes_nth d i1 Hb ltac:(lia)) as HBv. set (vif := nth i1 d 0) in *.
  destruct (ptext vif (rem d n (i1 + 1))) as [[[text l3]|]|] eqn:Et; cbn [sbind bind].
  2:{ destruct Hvif as [E|[E Hd]]; rewrite E; cbn [sbind bind]; [left; reflexivity|right; split; [reflexivity|lia]]. }
  2:{ rewrite Hvif. reflexivity. }
  destruct Hvif as (E & S3 & Ht & Hi3). rewrite E. cbn [sbind bind]. clear E.
  set (i3 := (n - length l3)%nat) in *.
  pose proof (parse_vife_spec d n i3 vif Hb HBv Hn ltac:(lia)) as Hvife. rewrite <- S3 in Hvife.
  destruct (pvife vif l3) as [[vifes l4]|] eqn:Ev.
  2:{ destruct Hvife as [E|[(a & c & E)|[E Hd]]]; rewrite E; cbn [sbind bind].
      - left. reflexivity.
      - left. destruct (Nat.ltb_spec n (n + 1)); [reflexivity|lia].
      - right. split; [reflexivity|lia]. }
  destruct Hvife as (E & S4 & Hv10 & Hi4). rewrite E. cbn [sbind bind]. clear E.
  set (i4 := (n - length l4)%nat) in *.
  destruct (Nat.ltb_spec n i4) as [Hx|_]; [lia|].
  assert (Hl4 : length l4 = (n - i4)%nat) by (rewrite S4; apply rem_length; lia).
  rewrite (land0F _ HB). unfold psize.
  destruct (Z.eqb_spec (dif mod 16) 13) as [E13|E13].
  - destruct (Nat.lt_ge_cases i4 n) as [Hi4n|Hi4n].
    2:{ assert (l4 = []) as -> by (destruct l4; [reflexivity|cbn [length] in *; lia]).
        change ((length (@nil Z) <? 1)%nat) with true. cbv iota.
        destruct (Nat.lt_ge_cases i4 (length d)) as [Hd|Hd].
        2:{ rewrite rd_UB by lia. right. split; [reflexivity|lia]. }
        left. rewrite rd_ok by lia. cbn [bind].
        rewrite (difsize_ok _ HB), difsize_13 by assumption. cbn [Z.of_nat].
        pose proof (bytes_nth d i4 Hb Hd) as HB4.
        rewrite (lvar_ok _ HB4). pose proof (lvar_range _ HB4).
        match goal with |- context [(n <? ?x)%nat] => destruct (Nat.ltb_spec n x); [reflexivity|lia] end. }
    rewrite rd_ok by lia. cbn [bind].
    pose proof (bytes_nth d i4 Hb ltac:(lia)) as HB4.
    rewrite (difsize_ok _ HB), difsize_13 by assumption. cbn [Z.of_nat]. rewrite (lvar_ok _ HB4).
    pose proof (lvar_range _ HB4) as Hlr.
    rewrite (rem_step d n i4) in S4 by lia.
    destruct l4 as [|b4 t4]; [discriminate|]. injection S4 as Eb St. rewrite Eb in Hl4 |- *.
    set (k := Z.to_nat (lvar_size (nth i4 d 0) + 1)) in *. assert (Hk : (1 <= k <= 192)%nat) by lia. clearbody k.
    rewrite Hl4.
    destruct (Nat.ltb_spec n (i4 + k)) as [E2|E2].
    { destruct (Nat.ltb_spec (n - i4) k); [|lia]. left. reflexivity. }
    destruct (Nat.ltb_spec (n - i4) k); [lia|].
    rewrite copy_pad by lia. cbn [bind].
    assert (S4 : nth i4 d 0 :: t4 = rem d n i4) by (rewrite rem_step by lia; congruence).
    rewrite S4, rem_firstn by lia. rewrite rem_skip by lia. rewrite rem_length by lia.
    replace (n - (n - (i4 + k)))%nat with (i4 + k)%nat by lia.
    split; [|split; [reflexivity|lia]].
    unfold obj. cbn [a_dif a_difes a_vif a_vifes a_text a_value].
    rewrite firstn_length, skipn_length. replace (Nat.min k (length d - i4)) with k by lia. reflexivity.
  - cbn [bind]. rewrite (difsize_ok _ HB), Nat2Z.id.
    set (k := dif_size dif) in *. assert (Hk : (k <= 8)%nat) by apply difsize_le. clearbody k.
    rewrite Hl4.
    destruct (Nat.ltb_spec n (i4 + k)) as [E2|E2].
    { destruct (Nat.ltb_spec (n - i4) k); [|lia]. left. reflexivity. }
    destruct (Nat.ltb_spec (n - i4) k); [lia|].
    rewrite copy_pad by lia. cbn [bind].
    rewrite S4, rem_firstn by lia. rewrite rem_skip by lia. rewrite rem_length by lia.
    replace (n - (n - (i4 + k)))%nat with (i4 + k)%nat by lia.
    split; [|split; [reflexivity|lia]].
    unfold obj. cbn [a_dif a_difes a_vif a_vifes a_text a_value].
    rewrite firstn_length, skipn_length. replace (Nat.min k (length d - i4)) with k by lia. reflexivity.
Qed.
