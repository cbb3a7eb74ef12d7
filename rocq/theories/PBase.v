(** Lemmas about the base operations. *)
From Verif Require Import CBase.

Lemma bind_Ok {A B} (x : res A) (k : A -> res B) b :
  bind x k = Ok b -> exists a, x = Ok a /\ k a = Ok b.
Proof. destruct x; cbn; intros H; [eauto|discriminate]. Qed.

Lemma ok_inj2 {A B} (a c : A) (b d : B) : Ok (a, b) = Ok (c, d) -> a = c /\ b = d.
Proof. intros H. injection H as -> ->. auto. Qed.
Lemma ok_inj {A} (a c : A) : Ok a = Ok c -> a = c.
Proof. intros H. injection H as ->. auto. Qed.

Lemma rd_ok l i : (i < length l)%nat -> rd l i = Ok (nth i l 0).
Proof.
  intros H. unfold rd. rewrite (nth_error_nth' l 0 H). reflexivity.
Qed.

Lemma rd_UB l i : (length l <= i)%nat -> rd l i = UB.
Proof. intros H. unfold rd. rewrite (proj2 (nth_error_None l i) H). reflexivity. Qed.

Lemma rd_inv l i b : rd l i = Ok b -> (i < length l)%nat /\ nth i l 0 = b.
Proof.
  intros H. destruct (Nat.lt_ge_cases i (length l)) as [Hl|Hl].
  - rewrite rd_ok in H by assumption. inversion H; auto.
  - rewrite rd_UB in H by assumption. discriminate.
Qed.

Lemma rd_app1 l1 l2 i : (i < length l1)%nat -> rd (l1 ++ l2) i = rd l1 i.
Proof. intros H. unfold rd. rewrite nth_error_app1 by assumption. reflexivity. Qed.

Lemma rd_app2 l1 l2 i : (length l1 <= i)%nat -> rd (l1 ++ l2) i = rd l2 (i - length l1).
Proof. intros H. unfold rd. rewrite nth_error_app2 by assumption. reflexivity. Qed.

Lemma rd_app_exact l1 b l2 i : i = length l1 -> rd (l1 ++ b :: l2) i = Ok b.
Proof.
  intros ->. rewrite rd_app2 by lia. rewrite Nat.sub_diag. reflexivity.
Qed.

Lemma upd_length l i v : length (upd l i v) = length l.
Proof. revert i. induction l as [|h t IH]; intros [|i]; cbn; auto. Qed.

Lemma upd_app2 l1 l2 i v : (length l1 <= i)%nat ->
  upd (l1 ++ l2) i v = l1 ++ upd l2 (i - length l1) v.
Proof.
  revert i. induction l1 as [|h t IH]; intros i Hi; cbn.
  - rewrite Nat.sub_0_r. reflexivity.
  - destruct i as [|i]; cbn in Hi; [lia|]. cbn. rewrite IH by lia. reflexivity.
Qed.

Lemma upd_splice l i v : (i < length l)%nat ->
  upd l i v = firstn i l ++ v :: skipn (S i) l.
Proof.
  revert i. induction l as [|h t IH]; intros [|i] Hi; cbn in *; try lia; auto.
  rewrite IH by lia. reflexivity.
Qed.

Lemma wr_ok l i v : (i < length l)%nat -> wr l i v = Ok (upd l i v).
Proof. intros H. unfold wr. rewrite (proj2 (Nat.ltb_lt _ _) H). reflexivity. Qed.

Lemma wr_UB l i v : (length l <= i)%nat -> wr l i v = UB.
Proof. intros H. unfold wr. rewrite (proj2 (Nat.ltb_ge _ _) H). reflexivity. Qed.

Lemma wr_inv l i v l' : wr l i v = Ok l' -> (i < length l)%nat /\ l' = upd l i v.
Proof. unfold wr. destruct (Nat.ltb_spec i (length l)) as [Hl|Hl]; intros E; inversion E; auto. Qed.

Lemma firstn_app_exact {A} (l1 l2 : list A) n : n = length l1 -> firstn n (l1 ++ l2) = l1.
Proof. intros ->. rewrite firstn_app, Nat.sub_diag, firstn_all. cbn. apply app_nil_r. Qed.
Lemma skipn_app_exact {A} (l1 l2 : list A) n : n = length l1 -> skipn n (l1 ++ l2) = l2.
Proof. intros ->. rewrite skipn_app, Nat.sub_diag, skipn_all. reflexivity. Qed.

Lemma skipn_add {A} n : forall k (l : list A), skipn n (skipn k l) = skipn (n + k) l.
Proof.
  induction k as [|k IHk]; intros l.
  - cbn. rewrite Nat.add_0_r. reflexivity.
  - rewrite Nat.add_succ_r. destruct l as [|h t]; cbn.
    + apply skipn_nil.
    + apply IHk.
Qed.

(** The copy loop splices the source segment into the destination. *)
Lemma copy_loop_ok n : forall dst o src s,
  (o + n <= length dst)%nat -> (s + n <= length src)%nat ->
  copy_loop n dst o src s
  = Ok (firstn o dst ++ firstn n (skipn s src) ++ skipn (o + n) dst).
Proof.
  induction n as [|n IH]; intros dst o src s Hd Hs; cbn [copy_loop].
  - cbn. rewrite Nat.add_0_r, firstn_skipn. reflexivity.
  - rewrite rd_ok by lia. cbn [bind]. rewrite wr_ok by lia. cbn [bind].
    rewrite IH by (rewrite ?upd_length; lia). f_equal.
    rewrite upd_splice by lia.
    assert (Hf : length (firstn o dst) = o) by (rewrite firstn_length; lia).
    rewrite firstn_app, Hf, firstn_firstn.
    replace (Nat.min (S o) o) with o by lia.
    replace (S o - o)%nat with 1%nat by lia. cbn [firstn].
    rewrite <- app_assoc. f_equal.
    assert (E : skipn s src = nth s src 0 :: skipn (S s) src).
    { clear - Hs. revert s Hs. induction src as [|h t IHs]; intros [|s] Hs; cbn in *; try lia; auto.
      rewrite IHs by lia. reflexivity. }
    rewrite E. cbn [firstn app]. f_equal. f_equal.
    rewrite skipn_app, Hf.
    rewrite skipn_all2 by lia. cbn [app].
    replace (S o + n - o)%nat with (S n) by lia. cbn [skipn].
    replace (o + S n)%nat with (n + S o)%nat by lia.
    rewrite <- (skipn_add n (S o)). reflexivity.
Qed.

Lemma copy_loop_inv n : forall dst o src s r,
  copy_loop (S n) dst o src s = Ok r ->
  (o + S n <= length dst)%nat /\ (s + S n <= length src)%nat.
Proof.
  induction n as [|n IH]; intros dst o src s r H.
  - cbn in H. destruct (bind_Ok _ _ _ H) as (b & Hb & H').
    destruct (bind_Ok _ _ _ H') as (d & Hd & _).
    apply rd_inv in Hb. apply wr_inv in Hd. lia.
  - cbn [copy_loop] in H. destruct (bind_Ok _ _ _ H) as (b & Hb & H').
    destruct (bind_Ok _ _ _ H') as (d & Hd & H'').
    apply IH in H''. apply wr_inv in Hd. destruct Hd as [? ->].
    rewrite upd_length in H''. lia.
Qed.

Lemma put_list_ok vs : forall dst o,
  (o + length vs <= length dst)%nat ->
  put_list dst o vs = Ok (firstn o dst ++ vs ++ skipn (o + length vs) dst).
Proof.
  induction vs as [|v vs IH]; intros dst o H; cbn [put_list length app] in *.
  - rewrite Nat.add_0_r, firstn_skipn. reflexivity.
  - rewrite wr_ok by lia. cbn [bind]. rewrite IH by (rewrite upd_length; lia).
    f_equal. rewrite upd_splice by lia.
    assert (Hf : length (firstn o dst) = o) by (rewrite firstn_length; lia).
    rewrite firstn_app, Hf, firstn_firstn.
    replace (Nat.min (S o) o) with o by lia.
    replace (S o - o)%nat with 1%nat by lia. cbn [firstn].
    rewrite <- app_assoc. cbn [app]. f_equal. f_equal. f_equal.
    rewrite skipn_app, Hf. rewrite skipn_all2 by lia. cbn [app].
    replace (S o + length vs - o)%nat with (S (length vs)) by lia. cbn [skipn].
    replace (o + S (length vs))%nat with (length vs + S o)%nat by lia.
    rewrite <- (skipn_add (length vs) (S o)). reflexivity.
Qed.

Lemma bytes_app l1 l2 : bytes (l1 ++ l2) <-> bytes l1 /\ bytes l2.
Proof. apply Forall_app. Qed.
Lemma bytes_cons b l : bytes (b :: l) <-> is_byte b /\ bytes l.
Proof. split; intros H; [inversion H; auto | constructor; tauto]. Qed.
Lemma bytes_nil : bytes [].
Proof. constructor. Qed.
Lemma bytes_firstn n l : bytes l -> bytes (firstn n l).
Proof. revert l; induction n as [|n IH]; intros [|h t] H; cbn; try constructor;
  apply bytes_cons in H; [tauto|]. apply IH; tauto. Qed.
Lemma bytes_skipn n l : bytes l -> bytes (skipn n l).
Proof. revert l; induction n as [|n IH]; intros [|h t] H; cbn; auto.
  apply bytes_cons in H. apply IH; tauto. Qed.
Lemma bytes_nth l i : bytes l -> (i < length l)%nat -> is_byte (nth i l 0).
Proof. intros H Hi. apply (proj1 (Forall_forall _ _) H). apply nth_In; assumption. Qed.
Lemma bytes_rd l i b : bytes l -> rd l i = Ok b -> is_byte b.
Proof. intros H Hr. apply rd_inv in Hr. destruct Hr as [Hi <-]. apply bytes_nth; assumption. Qed.
Lemma u8_byte x : is_byte (u8 x).
Proof. unfold u8, is_byte. lia. Qed.
Lemma u8_id x : is_byte x -> u8 x = x.
Proof. unfold u8, is_byte. lia. Qed.

Lemma app_inj_len {A} (l1 l2 r1 r2 : list A) :
  l1 ++ r1 = l2 ++ r2 -> length l1 = length l2 -> l1 = l2 /\ r1 = r2.
Proof.
  revert l2. induction l1 as [|x l1 IH]; intros [|y l2] E L; cbn in L; try lia; auto.
  cbn [app] in E. injection E as -> E. destruct (IH l2 E ltac:(lia)) as [-> ->]. auto.
Qed.
