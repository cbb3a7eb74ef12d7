(** Proofs about XML generation. *)
From Verif Require Import CBase PBase MFrame MCodec MVar MXml SVar SXml PVar PVar2 PVar3.

(** ** Escaping *)
Lemma escape_len c : (1 <= length (escape c) <= 6)%nat.
Proof.
  unfold escape. destruct (is_control c), (c =? 38), (c =? 60), (c =? 62), (c =? 34); cbn; lia.
Qed.

Lemma put_ok dst off l : (off + length l <= length dst)%nat ->
  exists dst', put_list dst off l = Ok dst' /\ length dst' = length dst /\
    firstn (off + length l) dst' = firstn off dst ++ l /\
    forall k, (off + length l <= k)%nat -> skipn k dst' = skipn k dst.
Proof.
  intros H. rewrite put_list_ok by lia. eexists. split; [reflexivity|].
  assert (Hf : length (firstn off dst) = off) by (rewrite firstn_length; lia).
  split. { rewrite !app_length, skipn_length, Hf. lia. }
  split. { rewrite app_assoc. apply firstn_app_exact. rewrite app_length, Hf. reflexivity. }
  intros k Hk. rewrite app_assoc, skipn_app, app_length, Hf.
  rewrite skipn_all2 by (rewrite app_length; lia). cbn [app]. rewrite skipn_add. f_equal. lia.
Qed.

Lemma firstn_weaken (a b : list Z) n m : firstn n a = firstn n b -> (m <= n)%nat -> firstn m a = firstn m b.
Proof.
  intros H Hm. assert (E : firstn m (firstn n a) = firstn m (firstn n b)) by (rewrite H; reflexivity).
  rewrite !firstn_firstn, Nat.min_l in E by lia. exact E.
Qed.

Lemma wr_put dst off v : wr dst off v = put_list dst off [v].
Proof. cbn [put_list]. destruct (wr dst off v); reflexivity. Qed.

(** One iteration writes [escape c] at [len]. *)
Lemma xml_step c src dst len M : 1 <= c < 256 -> (len + 6 < M)%nat -> (M <= length dst)%nat ->
  exists dst1, xml_loop (c :: src) dst len M = xml_loop src dst1 (len + length (escape c)) M /\
    length dst1 = length dst /\ firstn (len + length (escape c)) dst1 = firstn len dst ++ escape c /\
    skipn M dst1 = skipn M dst.
Proof.
  intros Hc Hl HM. pose proof (escape_len c) as Hel. cbn [xml_loop].
  destruct (Nat.ltb_spec (len + 6) M); [|lia].
  destruct (Z.eqb_spec c 0); [lia|].
  assert (Ectl : c_iscntrl c = is_control c).
  { unfold c_iscntrl, is_control. destruct (c =? 127); [rewrite !orb_true_r; reflexivity|]. rewrite !orb_false_r.
    destruct (Z.ltb_spec c 32), (Z.leb_spec c 31), (Z.leb_spec 0 c); cbn; reflexivity || lia. }
  rewrite Ectl. unfold escape in *. destruct (is_control c).
  { destruct (put_ok dst len [32] ltac:(cbn; lia)) as (d1 & E & L & F & S). rewrite wr_put, E. cbn [bind].
    exists d1. split; [reflexivity|]. split; [assumption|]. split; [exact F|]. apply S. cbn. lia. }
  assert (Ent : forall e, length e <> 0%nat -> (length e <= 6)%nat ->
    exists d1, snprintf_s dst len (M - len) e = Ok d1 /\ length d1 = length dst /\
      firstn (len + length e) d1 = firstn len dst ++ e /\ skipn M d1 = skipn M dst).
  { intros e He0 He. unfold snprintf_s. destruct (M - len)%nat as [|m] eqn:Em; [lia|].
    rewrite firstn_all2 by lia.
    destruct (put_ok dst len (e ++ [0]) ltac:(rewrite app_length; cbn; lia)) as (d1 & E & L & F & S).
    rewrite app_length in F, S. cbn [length] in F, S.
    exists d1. split; [assumption|]. split; [assumption|]. split.
    - assert (F2 : firstn (len + length e) (firstn (len + (length e + 1)) d1) = firstn (len + length e) (firstn len dst ++ e ++ [0])) by (rewrite F; reflexivity).
      rewrite firstn_firstn, Nat.min_l in F2 by lia. rewrite F2, app_assoc.
      apply firstn_app_exact. rewrite app_length, firstn_length. lia.
    - apply S. lia. }
  unfold xml_entity.
  destruct (c =? 38). { destruct (Ent s_amp ltac:(discriminate) ltac:(cbn; lia)) as (d1 & E & L & F & S). rewrite E. cbn [bind]. exists d1. auto. }
  destruct (c =? 60). { destruct (Ent s_lt ltac:(discriminate) ltac:(cbn; lia)) as (d1 & E & L & F & S). rewrite E. cbn [bind]. exists d1. auto. }
  destruct (c =? 62). { destruct (Ent s_gt ltac:(discriminate) ltac:(cbn; lia)) as (d1 & E & L & F & S). rewrite E. cbn [bind]. exists d1. auto. }
  destruct (c =? 34). { destruct (Ent s_quot ltac:(discriminate) ltac:(cbn; lia)) as (d1 & E & L & F & S). rewrite E. cbn [bind]. exists d1. auto. }
  destruct (put_ok dst len [c] ltac:(cbn; lia)) as (d1 & E & L & F & S). rewrite wr_put, E. cbn [bind].
  exists d1. split; [reflexivity|]. split; [assumption|]. split; [exact F|]. apply S. cbn. lia.
Qed.

Lemma xml_loop_spec : forall s junk dst len M, c_chars s -> (len < M)%nat -> (M <= length dst)%nat ->
  exists k dst' e, (k <= length s)%nat /\ e = escape_text (firstn k s) /\
    xml_loop (s ++ 0 :: junk) dst len M = Ok (dst', (len + length e)%nat) /\
    length dst' = length dst /\ firstn (len + length e) dst' = firstn len dst ++ e /\
    skipn M dst' = skipn M dst /\ (len + length e < M)%nat /\
    ((k < length s)%nat -> (M <= len + length e + 6)%nat).
Proof.
  induction s as [|c s IH]; intros junk dst len M Hc Hl HM.
  - exists 0%nat, dst, []. cbn [app length firstn escape_text flat_map].
    split; [lia|]. split; [reflexivity|]. cbn [xml_loop]. rewrite Nat.add_0_r, app_nil_r.
    split. { destruct (len + 6 <? M)%nat; reflexivity. }
    repeat split; try reflexivity; lia.
  - inversion_clear Hc as [|? ? H1 H2].
    destruct (Nat.lt_ge_cases (len + 6) M) as [Hgo|Hstop].
    + cbn [app]. destruct (xml_step c (s ++ 0 :: junk) dst len M H1 Hgo HM) as (d1 & E & L & F & Sd).
      pose proof (escape_len c) as Hel.
      destruct (IH junk d1 (len + length (escape c))%nat M H2 ltac:(lia) ltac:(lia)) as (k & d2 & e & K & Ee & E2 & L2 & F2 & S2 & B2 & T2).
      exists (S k), d2, (escape c ++ e). cbn [length firstn escape_text flat_map]. fold (escape_text (firstn k s)).
      rewrite app_length, Nat.add_assoc. split; [lia|]. split; [rewrite Ee; reflexivity|].
      split; [rewrite E; exact E2|]. split; [lia|].
      split; [rewrite F2, F, app_assoc; reflexivity|]. split; [congruence|]. split; [assumption|].
      intros Hk. apply T2. lia.
    + exists 0%nat, dst, []. cbn [length firstn escape_text flat_map]. rewrite Nat.add_0_r, app_nil_r.
      split; [lia|]. split; [reflexivity|].
      split. { cbn [app xml_loop]. destruct (Nat.ltb_spec (len + 6) M); [lia|reflexivity]. }
      repeat split; try reflexivity; try lia.
Qed.

Lemma escape_text_le s k : (length (escape_text (firstn k s)) <= length (escape_text s))%nat.
Proof.
  rewrite <- (firstn_skipn k s) at 2. unfold escape_text. rewrite flat_map_app, app_length. lia.
Qed.
Lemma escape_text_lt s k : (k < length s)%nat -> (length (escape_text (firstn k s)) < length (escape_text s))%nat.
Proof.
  intros Hk. rewrite <- (firstn_skipn k s) at 2. unfold escape_text. rewrite flat_map_app, app_length.
  assert (length (skipn k s) = length s - k)%nat by apply skipn_length.
  destruct (skipn k s) as [|c t]; [cbn in *; lia|]. cbn [flat_map]. rewrite app_length. pose proof (escape_len c). lia.
Qed.

Lemma xml_encode_spec s junk dst M : c_chars s -> (1 <= M <= length dst)%nat ->
  exists k dst', (k <= length s)%nat /\
    let e := escape_text (firstn k s) in
    mbus_str_xml_encode dst (s ++ 0 :: junk) M = Ok (0, dst') /\
    firstn (length e + 1) dst' = e ++ [0] /\ (length e < M)%nat /\ length dst' = length dst /\
    skipn M dst' = skipn M dst /\ ((length (escape_text s) + 6 <= M)%nat -> k = length s).
Proof.
  intros Hc [H1 HM]. destruct (xml_loop_spec s junk dst 0 M Hc ltac:(lia) HM) as (k & d & e & K & Ee & E & L & F & S & B & T).
  cbn [Nat.add firstn app] in *. subst e.
  destruct (put_ok d (length (escape_text (firstn k s))) [0] ltac:(cbn; lia)) as (d2 & E2 & L2 & F2 & S2).
  exists k, d2. split; [assumption|]. cbv zeta. unfold mbus_str_xml_encode. rewrite E. cbn [bind]. rewrite wr_put, E2. cbn [bind].
  split; [reflexivity|]. cbn [length] in F2. rewrite F in F2. split; [exact F2|].
  split; [assumption|]. split; [lia|]. split; [rewrite S2 by (cbn; lia); assumption|].
  intros Hbig. destruct (Nat.eq_dec k (length s)) as [|Hne]; [assumption|].
  pose proof (escape_text_lt s k ltac:(lia)). specialize (T ltac:(lia)). lia.
Qed.

Lemma is_control_byte c : 1 <= c < 256 -> is_control c = false -> 32 <= c /\ c <> 127.
Proof. unfold is_control. lia. Qed.

Lemma escape_unescape s : c_chars s -> unescape (escape_text s) = map blank_control s.
Proof.
  induction s as [|c s IH]; intros H; [reflexivity|]. inversion_clear H as [|? ? H1 H2]. specialize (IH H2).
  cbn [escape_text flat_map map]. fold (escape_text s). unfold escape, blank_control.
  destruct (is_control c) eqn:Ec; [cbn [app unescape]; rewrite IH; reflexivity|].
  apply is_control_byte in Ec; [|assumption].
  destruct (Z.eqb_spec c 38) as [->|N1]; [cbn [app unescape]; rewrite IH; reflexivity|].
  destruct (Z.eqb_spec c 60) as [->|N2]; [cbn [app unescape]; rewrite IH; reflexivity|].
  destruct (Z.eqb_spec c 62) as [->|N3]; [cbn [app unescape]; rewrite IH; reflexivity|].
  destruct (Z.eqb_spec c 34) as [->|N4]; [cbn [app unescape]; rewrite IH; reflexivity|].
  cbn [app]. 
  assert (U : unescape (c :: escape_text s) = c :: unescape (escape_text s)).
  { clear - N1. destruct c as [|p|p]; try reflexivity.
    do 6 (destruct p as [p|p|]; try reflexivity). congruence. }
  rewrite U, IH. reflexivity.
Qed.
Lemma escape_safe s : c_chars s -> safe_text (escape_text s).
Proof.
  induction s as [|c s IH]; intros H; [constructor|]. inversion_clear H as [|? ? H1 H2]. specialize (IH H2).
  cbn [escape_text flat_map]. fold (escape_text s). unfold escape.
  destruct (is_control c) eqn:Ec; [cbn [app]; constructor; auto; lia|].
  apply is_control_byte in Ec; [|assumption].
  destruct (Z.eqb_spec c 38) as [->|N1]; [cbn [app]; constructor; assumption|].
  destruct (Z.eqb_spec c 60) as [->|N2]; [cbn [app]; constructor; assumption|].
  destruct (Z.eqb_spec c 62) as [->|N3]; [cbn [app]; constructor; assumption|].
  destruct (Z.eqb_spec c 34) as [->|N4]; [cbn [app]; constructor; assumption|].
  cbn [app]. apply st_char; auto; lia.
Qed.
Lemma c_chars_firstn k s : c_chars s -> c_chars (firstn k s).
Proof.
  revert s. induction k as [|k IH]; intros [|c s] H; cbn; try constructor; inversion_clear H; auto.
  apply IH. assumption.
Qed.
