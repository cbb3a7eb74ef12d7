(** Proofs about the payload parser, third part: the property lemmas. *)
From Verif Require Import CBase PBase MFrame MCodec PCodec PCodec2 MVar SVar PVar PVar2.

Lemma carries_rem f p i : carries f p -> rem (fdata f) (length p) i = skipn i p.
Proof.
  intros (HL & HB & Hs & Hf & Hle). unfold rem. rewrite <- Hf at 2.
  rewrite skipn_firstn_comm. reflexivity.
Qed.
Lemma carries_bytes f p : carries f p -> bytes p.
Proof. intros (HL & HB & Hs & Hf & Hle). rewrite <- Hf. apply bytes_firstn. assumption. Qed.

(** The parser in terms of the list parser. *)
Lemma variable_parse_list f p dv0 : carries f p -> (12 <= length p)%nat ->
  match ploop (S (length p)) (skipn 12 p) with
  | Ok (ok, its, t) =>
      mbus_data_variable_parse f dv0 = Ok (if ok then 0 else -1, dvar_of (firstn 12 p) its t)
      \/ (ok = false /\ mbus_data_variable_parse f dv0 = UB /\ (251 <= length p)%nat)
  | UB => mbus_data_variable_parse f dv0 = UB
  end.
Proof.
  intros Hc H12. pose proof Hc as (HL & HB & Hs & Hf & Hle). unfold DATA_LEN in *.
  unfold mbus_data_variable_parse. rewrite Hs, Nat2Z.id.
  destruct (Nat.ltb_spec (length p) 12) as [?|_]; [lia|].
  rewrite (copy_pad 12 12) by lia. cbn [bind].
  assert (Eh : pad 12 (firstn 12 (skipn 0 (fdata f))) = firstn 12 p).
  { cbn [skipn]. unfold pad. rewrite firstn_length, Nat.min_l by lia. cbn [Nat.sub repeat]. rewrite app_nil_r.
    rewrite <- Hf. rewrite firstn_firstn, Nat.min_l by lia. reflexivity. }
  rewrite Eh.
  pose proof (records_loop_spec (S (length p)) (fdata f) (length p) 12 (mkVar (firstn 12 p) [] 0 0) HB ltac:(lia) ltac:(lia) ltac:(lia)) as H.
  rewrite (carries_rem f p 12 Hc) in H.
  destruct (ploop (S (length p)) (skipn 12 p)) as [[[ok its] t]|]; [|exact H].
  destruct H as [H|(A & B & C)]; [left|right].
  - rewrite H. cbn [v_header v_records v_nrecords v_more app]. unfold dvar_of. f_equal. f_equal. f_equal.
    destruct t as [[[] b]|]; reflexivity.
  - split; [assumption|]. split; [assumption|]. lia.
Qed.

Lemma header_body (h b : list Z) : length h = 12%nat -> firstn 12 (h ++ b) = h /\ skipn 12 (h ++ b) = b.
Proof. intros H. split; [apply firstn_app_exact|apply skipn_app_exact]; auto. Qed.

Lemma parse_encoded f h its t dv0 : carries f (h ++ enc_body its t) -> length h = 12%nat ->
  Forall wf_item its -> wf_tail t ->
  mbus_data_variable_parse f dv0 = Ok (0, dvar_of h its t).
Proof.
  intros Hc Hh Hi Ht. destruct (header_body h (enc_body its t) Hh) as [E1 E2].
  pose proof (variable_parse_list f _ dv0 Hc ltac:(rewrite app_length; lia)) as H.
  rewrite E1, E2 in H. unfold enc_body in H at 2.
  destruct (ploop_items its (enc_tail t) (S (length (h ++ enc_body its t))) Hi) as (fu & Hfu & E).
  { rewrite (app_length h). unfold enc_body. lia. }
  rewrite E, ploop_tail in H by (assumption || lia). cbn [bind] in H. rewrite app_nil_r in H.
  destruct H as [H|(A & _)]; [exact H|discriminate].
Qed.

Lemma parse_shape f p dv0 c dv : carries f p -> (12 <= length p)%nat ->
  mbus_data_variable_parse f dv0 = Ok (c, dv) ->
  exists h its t rest, length h = 12%nat /\ p = h ++ enc_body its t ++ rest /\
    Forall wf_item its /\ wf_tail t /\ dv = dvar_of h its t /\
    ((c = 0 /\ rest = []) \/ (c = -1 /\ t = None /\ rest <> [])).
Proof.
  intros Hc H12 H. pose proof (variable_parse_list f p dv0 Hc H12) as HP.
  pose proof (carries_bytes f p Hc) as Hb.
  destruct (ploop (S (length p)) (skipn 12 p)) as [[[ok its] t]|] eqn:E; [|congruence].
  destruct HP as [HP|(A & B & C)]; [|congruence].
  rewrite HP in H. apply ok_inj2 in H. destruct H as [<- <-].
  apply ploop_inv in E; [|apply bytes_skipn; assumption].
  destruct E as (W & Wt & rest & El & Hr).
  exists (firstn 12 p), its, t, rest. rewrite firstn_length.
  split; [lia|]. split; [rewrite <- El; symmetry; apply firstn_skipn|].
  split; [assumption|]. split; [assumption|]. split; [reflexivity|].
  destruct ok; [left|right]; auto.
Qed.

Lemma parse_only_encodings f p dv0 dv : carries f p -> mbus_data_variable_parse f dv0 = Ok (0, dv) ->
  exists h its t, length h = 12%nat /\ p = h ++ enc_body its t /\ Forall wf_item its /\ wf_tail t /\ dv = dvar_of h its t.
Proof.
  intros Hc H. destruct (Nat.lt_ge_cases (length p) 12) as [Hlt|Hge].
  - unfold mbus_data_variable_parse in H. destruct Hc as (_ & _ & Hs & _). rewrite Hs, Nat2Z.id in H.
    destruct (Nat.ltb_spec (length p) 12); [discriminate|lia].
  - destruct (parse_shape f p dv0 0 dv Hc Hge H) as (h & its & t & rest & A & B & C & D & E & F).
    destruct F as [[_ ->]|[F _]]; [|discriminate]. rewrite app_nil_r in B. eauto 10.
Qed.

Lemma enc_unique its1 t1 its2 t2 : Forall wf_item its1 -> wf_tail t1 -> Forall wf_item its2 -> wf_tail t2 ->
  enc_body its1 t1 = enc_body its2 t2 -> its1 = its2 /\ t1 = t2.
Proof.
  intros W1 T1 W2 T2 E. unfold enc_body in E.
  set (fu := S (length (flat_map enc_item its1 ++ enc_tail t1))).
  destruct (ploop_items its1 (enc_tail t1) fu W1 ltac:(unfold fu; lia)) as (f1 & F1 & E1).
  destruct (ploop_items its2 (enc_tail t2) fu W2 ltac:(unfold fu; rewrite E; lia)) as (f2 & F2 & E2).
  rewrite ploop_tail in E1, E2 by (assumption || lia). rewrite E in E1. rewrite E1 in E2. cbn [bind] in E2.
  rewrite !app_nil_r in E2. injection E2 as -> ->. auto.
Qed.

Lemma parse_prefix f h its rest dv0 c dv : carries f (h ++ flat_map enc_item its ++ rest) -> length h = 12%nat ->
  Forall wf_item its -> mbus_data_variable_parse f dv0 = Ok (c, dv) ->
  exists more, v_records dv = objs its ++ more /\ v_header dv = h.
Proof.
  intros Hc Hh Hi H. destruct (header_body h (flat_map enc_item its ++ rest) Hh) as [E1 E2].
  pose proof (variable_parse_list f _ dv0 Hc ltac:(rewrite app_length; lia)) as HP.
  rewrite E1, E2 in HP.
  destruct (ploop_items its rest (S (length (h ++ flat_map enc_item its ++ rest))) Hi) as (fu & Hfu & E).
  { rewrite (app_length h). lia. }
  rewrite E in HP. destruct (ploop fu rest) as [[[ok its'] t]|]; cbn [bind] in HP; [|congruence].
  destruct HP as [HP|(_ & HP & _)]; [|congruence].
  rewrite HP in H. apply ok_inj2 in H. destruct H as [_ <-]. unfold dvar_of. cbn [v_records v_header].
  exists (objs its' ++ objs_tail t). split; [|reflexivity]. unfold objs. rewrite flat_map_app, app_assoc. reflexivity.
Qed.

Lemma parse_safe f p dv0 : carries f p -> (length p <= 250)%nat ->
  ~ long_text (skipn 12 p) -> ~ long_block (skipn 12 p) ->
  exists c dv, mbus_data_variable_parse f dv0 = Ok (c, dv).
Proof.
  intros Hc Hl N1 N2. destruct (Nat.lt_ge_cases (length p) 12) as [Hlt|Hge].
  - unfold mbus_data_variable_parse. destruct Hc as (_ & _ & Hs & _). rewrite Hs, Nat2Z.id.
    destruct (Nat.ltb_spec (length p) 12); [eauto|lia].
  - pose proof (variable_parse_list f p dv0 Hc Hge) as HP.
    destruct (ploop (S (length p)) (skipn 12 p)) as [[[ok its] t]|] eqn:E.
    + destruct HP as [HP|(_ & _ & HP)]; [|lia]. rewrite HP. eauto.
    + destruct (ploop_UB (S (length p)) (skipn 12 p) (bytes_skipn 12 p (carries_bytes f p Hc)) ltac:(rewrite skipn_length; lia) E); contradiction.
Qed.

Lemma parse_safe_247 f p dv0 : carries f p -> (length p <= 247)%nat -> ~ long_text (skipn 12 p) ->
  exists c dv, mbus_data_variable_parse f dv0 = Ok (c, dv).
Proof.
  intros Hc Hl N. apply (parse_safe f p); [assumption|lia|assumption|]. intros (q & Hq & Hlen).
  rewrite skipn_length in Hlen. lia.
Qed.

Lemma parse_stale f1 f2 p dv1 dv2 : carries f1 p -> carries f2 p -> (12 <= length p <= 250)%nat ->
  mbus_data_variable_parse f1 dv1 = mbus_data_variable_parse f2 dv2.
Proof.
  intros C1 C2 Hl.
  pose proof (variable_parse_list f1 p dv1 C1 ltac:(lia)) as H1.
  pose proof (variable_parse_list f2 p dv2 C2 ltac:(lia)) as H2.
  destruct (ploop (S (length p)) (skipn 12 p)) as [[[ok its] t]|] eqn:E; [|congruence].
  destruct H1 as [H1|(_ & _ & H1)]; [|lia]. destruct H2 as [H2|(_ & _ & H2)]; [|lia]. congruence.
Qed.

Lemma parse_short f p dv0 : carries f p -> (length p < 12)%nat ->
  mbus_data_variable_parse f dv0 = Ok (-1, mkVar (v_header dv0) (v_records dv0) 0 0).
Proof.
  intros (_ & _ & Hs & _) H. unfold mbus_data_variable_parse. rewrite Hs, Nat2Z.id.
  destruct (Nat.ltb_spec (length p) 12); [reflexivity|lia].
Qed.

(** ** Bounds of the records in the list *)
Lemma pad_length n l : (length l <= n)%nat -> length (pad n l) = n.
Proof. intros H. unfold pad. rewrite app_length, repeat_length. lia. Qed.
Lemma pad_In0 n l : (length l < n)%nat -> In 0 (pad n l).
Proof. intros H. unfold pad. apply in_or_app. right. destruct (n - length l)%nat eqn:E; [lia|]. left. reflexivity. Qed.
Lemma value_len a : wf_rec a -> (length (a_value a) <= 192)%nat.
Proof.
  intros (_ & _ & _ & _ & _ & _ & _ & _ & _ & V & B). unfold value_fits in V.
  destruct (a_dif a mod 16 =? 13).
  - destruct V as (b & w & E & L). apply bytes_enc_parts in B. rewrite E in B |- *. 
    destruct B as (_ & _ & B). rewrite bytes_cons in B. pose proof (lvar_range b ltac:(tauto)). cbn [length]. lia.
  - pose proof (difsize_le (a_dif a)). lia.
Qed.
Lemma objs_bounds its t : Forall wf_item its -> wf_tail t -> Forall rec_bounds (objs its ++ objs_tail t).
Proof.
  intros W Wt. apply Forall_app. split.
  - induction its as [|it its IH]; [constructor|]. inversion_clear W as [|? ? W1 W2].
    unfold objs. cbn [flat_map]. apply Forall_app. split; [|apply IH; assumption].
    destruct it as [|a]; [constructor|]. constructor; [|constructor].
    cbn [wf_item] in W1. pose proof (value_len a W1) as Lv.
    destruct W1 as (_ & _ & _ & _ & L1 & _ & L2 & L3 & _).
    unfold rec_bounds, obj. cbn [r_ndife r_nvife r_len r_dife r_vife r_custom r_data].
    rewrite !pad_length by lia. repeat split; try lia. apply pad_In0. lia.
  - destruct t as [[m b]|]; [|constructor]. cbn [objs_tail wf_tail] in *. constructor; [|constructor].
    unfold rec_bounds, obj_block. cbn [r_ndife r_nvife r_len r_dife r_vife r_custom r_data].
    rewrite !pad_length by (cbn; lia). repeat split; try lia. apply pad_In0. cbn. lia.
Qed.
Lemma bookkeeping f p dv0 c dv : carries f p -> (12 <= length p)%nat ->
  mbus_data_variable_parse f dv0 = Ok (c, dv) ->
  (c = 0 \/ c = -1) /\ v_nrecords dv = Z.of_nat (length (v_records dv)) /\ v_header dv = firstn 12 p /\
  Forall rec_bounds (v_records dv) /\ (v_more dv = 0 \/ v_more dv = 1) /\
  (v_more dv = 1 <-> c = 0 /\ exists r, last (v_records dv) rec_new = r /\ r_dif r = 0x1F /\ v_records dv <> []).
Proof.
  intros Hc H12 H. destruct (parse_shape f p dv0 c dv Hc H12 H) as (h & its & t & rest & A & B & C & D & E & F).
  subst dv. unfold dvar_of. cbn [v_nrecords v_records v_header v_more].
  split; [destruct F as [[-> _]|[-> _]]; auto|].
  split; [reflexivity|]. split; [rewrite B; symmetry; apply firstn_app_exact; auto|].
  split; [apply objs_bounds; assumption|].
  split; [destruct t as [[[] ?]|]; cbn; auto|].
  assert (NO : forall r, In r (objs its) -> r_dif r <> 0x1F).
  { intros r Hr. unfold objs in Hr. apply in_flat_map in Hr. destruct Hr as (it & Hit & Hr).
    pose proof (proj1 (Forall_forall _ _) C it Hit) as W. destruct it as [|a]; [destruct Hr|].
    destruct Hr as [<-|[]]. cbn. destruct W as (_ & W & _). exact W. }
  destruct t as [[m b]|].
  - cbn [objs_tail]. rewrite last_last. destruct F as [[-> _]|(_ & F & _)]; [|discriminate].
    destruct m; cbn [more_flag tail_dif]; (split; [intros HH|intros (_ & r & E1 & E2 & _)]); try lia.
    + split; [reflexivity|]. eexists. split; [reflexivity|]. split; [reflexivity|]. destruct (objs its); discriminate.
    + subst r. cbn in E2. lia.
  - cbn [objs_tail more_flag]. rewrite app_nil_r. split; [lia|]. intros (_ & r & E1 & E2 & E3). exfalso.
    destruct (exists_last E3) as (l' & r' & El). rewrite El, last_last in E1. subst r'.
    apply (NO r); [rewrite El; apply in_or_app; right; left; reflexivity|assumption].
Qed.

(** ** Storage number, tariff, device *)
Lemma land_tariff b : is_byte b -> Z.shiftr (Z.land b 0x30) 4 = (b / 16) mod 4.
Proof. intros H. by_bytes b H. Qed.
Lemma land_device b : is_byte b -> Z.shiftr (Z.land b 0x40) 6 = (b / 64) mod 2.
Proof. intros H. by_bytes b H. Qed.

Lemma digits_nonneg base g ds : 0 <= base -> (forall d, 0 <= g d) -> 0 <= digits base g ds.
Proof.
  intros Hb Hg. induction ds as [|d ds IH]; cbn; [lia|]. specialize (Hg d).
  assert (0 <= base * digits base g ds) by (apply Z.mul_nonneg_nonneg; assumption). lia.
Qed.
Lemma rd_firstn (l : list Z) ds j d : firstn (length ds) l = ds -> nth_error ds j = Some d -> rd l j = Ok d.
Proof.
  intros H E. unfold rd. rewrite <- H in E. 
  assert (Hj : (j < length ds)%nat) by (apply nth_error_Some; rewrite <- H, E; discriminate).
  clear H. revert j ds E Hj. induction l as [|h t IH]; intros j ds E Hj.
  - rewrite firstn_nil in E. destruct j; discriminate.
  - destruct ds as [|x ds]; [cbn in Hj; lia|]. cbn [length firstn] in E. destruct j as [|j]; cbn in E |- *.
    + injection E as ->. reflexivity.
    + apply (IH j ds E). cbn in Hj. lia.
Qed.

(** The three loops add the digit of each extension byte at its position. *)
Lemma loop_digits (loop : nat -> nat -> list Z -> Z -> Z -> res Z) (w : Z) (base : Z) (g : Z -> Z) (raw : Z -> Z) :
  base = 2 ^ w -> 0 < w ->
  (forall d, is_byte d -> raw d = g d /\ 0 <= g d < base) -> (forall d, 0 <= g d) ->
  (forall j l b r, loop 0%nat j l b r = Ok r) ->
  (forall k j l b r, loop (S k) j l b r
     = let* x := rd l j in let* s := int_shl (raw x) b in loop k (S j) l (b + w) (Z.lor r s)) ->
  forall ds pre l bit res,
    firstn (length (pre ++ ds)) l = pre ++ ds -> bytes ds -> 0 <= bit -> 0 <= res < 2 ^ bit ->
    (ds <> [] -> bit + w * (Z.of_nat (length ds) - 1) < 32) ->
    2 ^ bit * digits base g ds < 2 ^ 31 ->
    loop (length ds) (length pre) l bit res = Ok (res + 2 ^ bit * digits base g ds).
Proof.
  intros -> Hw Hraw Hg H0 HS. induction ds as [|d ds IH]; intros pre l bit res Hf Hb Hbit Hres Hn Hov.
  - cbn [length digits]. rewrite H0. f_equal. lia.
  - cbn [length]. rewrite HS.
    rewrite (rd_firstn l (pre ++ d :: ds) (length pre) d Hf)
      by (rewrite nth_error_app2, Nat.sub_diag by lia; reflexivity).
    cbn [bind]. rewrite bytes_cons in Hb. destruct Hb as [Bd Bds].
    destruct (Hraw d Bd) as [Er Hgd]. rewrite Er.
    cbn [digits] in Hov |- *.
    assert (Hp : 0 < 2 ^ bit) by (apply Z.pow_pos_nonneg; lia).
    assert (Hd : 0 <= digits (2 ^ w) g ds) by (apply digits_nonneg; [lia|assumption]).
    assert (Hbw : 2 ^ (bit + w) = 2 ^ bit * 2 ^ w) by (apply Z.pow_add_r; lia).
    assert (Hm : 0 <= 2 ^ bit * (2 ^ w * digits (2 ^ w) g ds)).
    { apply Z.mul_nonneg_nonneg; [lia|]. apply Z.mul_nonneg_nonneg; [apply Z.pow_nonneg; lia|assumption]. }
    rewrite Z.mul_add_distr_l in Hov |- *.
    assert (Hg0 : 0 <= 2 ^ bit * g d) by (apply Z.mul_nonneg_nonneg; lia).
    unfold int_shl.
    assert (Hn1 : bit + w * Z.of_nat (length ds) < 32).
    { specialize (Hn ltac:(discriminate)). cbn [length] in Hn. replace (Z.of_nat (S (length ds)) - 1) with (Z.of_nat (length ds)) in Hn by lia. exact Hn. }
    assert (Hw0 : 0 <= w * Z.of_nat (length ds)) by (apply Z.mul_nonneg_nonneg; lia).
    destruct (Z.leb_spec 32 bit); [lia|].
    change (2 ^ 31) with 2147483648 in Hov.
    rewrite int_op_ok by (unfold INT_MIN, INT_MAX; rewrite Z.mul_comm; lia). cbn [bind].
    rewrite lor_disjoint by lia.
    replace (S (length pre)) with (length (pre ++ [d])) by (rewrite app_length; cbn; lia).
    rewrite IH.
    + f_equal. rewrite Hbw. rewrite (Z.mul_comm (g d)). rewrite <- Z.mul_assoc. lia.
    + rewrite <- app_assoc. exact Hf.
    + assumption.
    + lia.
    + rewrite Hbw. rewrite (Z.mul_comm (g d)).
      split; [lia|].
      assert (2 ^ bit * (g d + 1) <= 2 ^ bit * 2 ^ w) by (apply Z.mul_le_mono_nonneg_l; lia).
      rewrite Z.mul_add_distr_l in H1. lia.
    + intros Hne. assert (length ds <> 0)%nat by (destruct ds; [congruence|cbn; lia]).
      replace (w * Z.of_nat (length ds)) with (w + w * (Z.of_nat (length ds) - 1)) in Hn1 by lia. lia.
    + change (2 ^ 31) with 2147483648. rewrite Hbw, <- Z.mul_assoc. lia.
Qed.

Lemma digits_bound base g ds : 0 < base -> (forall d, 0 <= g d < base) -> 0 <= digits base g ds < base ^ Z.of_nat (length ds).
Proof.
  intros Hb Hg. induction ds as [|d ds IH]; [cbn; lia|]. cbn [digits length].
  rewrite Nat2Z.inj_succ, Z.pow_succ_r by lia. specialize (Hg d).
  assert (0 <= base * digits base g ds) by (apply Z.mul_nonneg_nonneg; lia).
  assert (base * (digits base g ds + 1) <= base * base ^ Z.of_nat (length ds)) by (apply Z.mul_le_mono_nonneg_l; lia).
  rewrite Z.mul_add_distr_l in H0. lia.
Qed.

Lemma storage_spec r dif difes : has_difes r dif difes -> (length difes <= 8)%nat -> storage_number dif difes < 2 ^ 31 ->
  mbus_data_record_storage_number r = Ok (storage_number dif difes).
Proof.
  intros (H1 & H2 & H3 & H4 & H5 & H6 & H7) H8 Hov. unfold mbus_data_record_storage_number.
  rewrite H1, H2, land_device by assumption. unfold storage_number in *.
  rewrite (loop_digits storage_loop 4 16 (fun d => d mod 16) (fun b => Z.land b 0x0F)) with (pre := []);
    try reflexivity; try assumption; try lia.
  intros d Hd. rewrite land_0F. lia.
Qed.
Lemma tariff_spec r dif difes : has_difes r dif difes -> difes <> [] ->
  mbus_data_record_tariff r = Ok (tariff difes).
Proof.
  intros (H1 & H2 & H3 & H4 & H5 & H6 & H7) Hne. unfold mbus_data_record_tariff.
  rewrite H2. destruct (Nat.ltb_spec 0 (length difes)); [|destruct difes; [congruence|cbn in *; lia]].
  pose proof (digits_bound 4 (fun d => (d / 16) mod 4) difes ltac:(lia) ltac:(intros; lia)) as Hb.
  assert (4 ^ Z.of_nat (length difes) <= 4 ^ 10) by (apply Z.pow_le_mono_r; lia).
  change (4 ^ 10) with 1048576 in *.
  unfold tariff.
  rewrite (loop_digits tariff_loop 2 4 (fun d => (d / 16) mod 4) (fun b => Z.shiftr (Z.land b 0x30) 4)) with (pre := []);
    try reflexivity; try assumption; try lia.
  - f_equal. change (2 ^ 0) with 1. lia.
  - intros d Hd. rewrite land_tariff by assumption. lia.
Qed.
Lemma device_spec r dif difes : has_difes r dif difes -> difes <> [] ->
  mbus_data_record_device r = Ok (subunit difes).
Proof.
  intros (H1 & H2 & H3 & H4 & H5 & H6 & H7) Hne. unfold mbus_data_record_device.
  rewrite H2. destruct (Nat.ltb_spec 0 (length difes)); [|destruct difes; [congruence|cbn in *; lia]].
  pose proof (digits_bound 2 (fun d => (d / 64) mod 2) difes ltac:(lia) ltac:(intros; lia)) as Hb.
  assert (2 ^ Z.of_nat (length difes) <= 2 ^ 10) by (apply Z.pow_le_mono_r; lia).
  change (2 ^ 10) with 1024 in *.
  unfold subunit.
  rewrite (loop_digits device_loop 1 2 (fun d => (d / 64) mod 2) (fun b => Z.shiftr (Z.land b 0x40) 6)) with (pre := []);
    try reflexivity; try assumption; try lia.
  - f_equal. change (2 ^ 0) with 1. lia.
  - intros d Hd. rewrite land_device by assumption. lia.
Qed.
Lemma no_dife r dif : has_difes r dif [] ->
  mbus_data_record_tariff r = Ok (-1) /\ mbus_data_record_device r = Ok (-1).
Proof.
  intros (_ & H & _). unfold mbus_data_record_tariff, mbus_data_record_device. rewrite H. auto.
Qed.

(** ** Fixed data and dispatch *)
Lemma fixed_spec f p df : carries f p ->
  (length p = 16%nat -> exists x, mbus_data_fixed_parse f df = Ok (0, x) /\ fixed_layout p x) /\
  (length p <> 16%nat -> mbus_data_fixed_parse f df = Ok (-1, df)).
Proof.
  intros (HL & HB & Hs & Hf & Hle). unfold DATA_LEN in *. unfold mbus_data_fixed_parse. rewrite Hs. split; intros H.
  - rewrite H. change (Z.of_nat 16 =? 16) with true. cbn [negb].
    rewrite !rd_ok by lia. cbn [bind]. eexists. split; [reflexivity|].
    unfold fixed_layout. cbn [x_id x_tx_cnt x_status x_type1 x_type2 x_val1 x_val2 app length].
    split; [|auto]. rewrite H in Hf. rewrite <- Hf at 1.
    destruct (fdata f) as [|a0 l0]; [cbn in HL; lia|].
    do 15 (destruct l0 as [|? l0]; [cbn in HL; lia|]). reflexivity.
  - destruct (Z.eqb_spec (Z.of_nat (length p)) 16); [lia|]. reflexivity.
Qed.

(** ** Re-packing *)
Definition written (d d' : list Z) (n : nat) (l : list Z) : Prop :=
  length d' = length d /\ firstn (n + length l) d' = firstn n d ++ l.
Lemma written_wr d n v : (n < length d)%nat -> exists d', wr d n v = Ok d' /\ written d d' n [v].
Proof. intros H. rewrite wr_ok by lia. eexists. split; [reflexivity|]. split; [apply upd_length|]. cbn [length]. apply firstn_upd. lia. Qed.
Lemma splice_written d n l : (n + length l <= length d)%nat -> written d (firstn n d ++ l ++ skipn (n + length l) d) n l.
Proof.
  intros H. assert (Hf : length (firstn n d) = n) by (rewrite firstn_length; lia). split.
  - rewrite !app_length, skipn_length, Hf. lia.
  - rewrite app_assoc. apply firstn_app_exact. rewrite app_length, Hf. lia.
Qed.
Lemma written_copy d n k src l : (n + k <= length d)%nat -> (k <= length src)%nat -> firstn k src = l ->
  exists d', copy_loop k d n src 0 = Ok d' /\ written d d' n l.
Proof.
  intros H1 H2 <-. rewrite copy_loop_ok by lia. eexists. split; [reflexivity|]. cbn [skipn].
  assert (E : length (firstn k src) = k) by (rewrite firstn_length; lia).
  pose proof (splice_written d n (firstn k src)) as S. rewrite E in S. apply S. lia.
Qed.
Lemma written_trans d d1 d2 n l1 l2 : written d d1 n l1 -> written d1 d2 (n + length l1) l2 -> written d d2 n (l1 ++ l2).
Proof.
  intros [A1 A2] [B1 B2]. split; [congruence|]. rewrite app_length.
  replace (n + (length l1 + length l2))%nat with (n + length l1 + length l2)%nat by lia.
  rewrite B2, A2, app_assoc. reflexivity.
Qed.
Lemma firstn_pad n l : firstn (length l) (pad n l) = l.
Proof. unfold pad. apply firstn_app_exact. reflexivity. Qed.

(** What the packer emits for a record object: the plain text is not emitted. *)
Definition repack (r : rec) : list Z :=
  r_dif r :: firstn (r_ndife r) (r_dife r) ++ r_vif r :: firstn (r_nvife r) (r_vife r) ++ firstn (r_len r) (r_data r).
Lemma pack_record_ok d n r : rec_bounds r -> (n + length (repack r) <= length d)%nat ->
  exists d', pack_record d n r = Ok (d', (n + length (repack r))%nat) /\ written d d' n (repack r).
Proof.
  intros (B1 & B2 & B3 & B4 & B5 & B6 & B7 & _) H.
  assert (L : length (repack r) = (1 + r_ndife r + 1 + r_nvife r + r_len r)%nat).
  { unfold repack. cbn [length]. rewrite app_length. cbn [length]. rewrite app_length, !firstn_length. lia. }
  rewrite L in *. unfold pack_record.
  destruct (written_wr d n (r_dif r) ltac:(lia)) as (d1 & E1 & W1). rewrite E1. cbn [bind].
  pose proof W1 as [L1 _].
  destruct (written_copy d1 (n + 1) (r_ndife r) (r_dife r) _ ltac:(lia) ltac:(lia) eq_refl) as (d2 & E2 & W2).
  rewrite E2. cbn [bind]. pose proof W2 as [L2 _].
  destruct (written_wr d2 (n + 1 + r_ndife r) (r_vif r) ltac:(lia)) as (d3 & E3 & W3). rewrite E3. cbn [bind].
  pose proof W3 as [L3 _].
  destruct (written_copy d3 (n + 1 + r_ndife r + 1) (r_nvife r) (r_vife r) _ ltac:(lia) ltac:(lia) eq_refl) as (d4 & E4 & W4).
  rewrite E4. cbn [bind]. pose proof W4 as [L4 _].
  destruct (written_copy d4 (n + 1 + r_ndife r + 1 + r_nvife r) (r_len r) (r_data r) _ ltac:(lia) ltac:(lia) eq_refl) as (d5 & E5 & W5).
  rewrite E5. cbn [bind]. exists d5. split; [f_equal; f_equal; lia|].
  assert (F1 : length (firstn (r_ndife r) (r_dife r)) = r_ndife r) by (rewrite firstn_length; lia).
  assert (F2 : length (firstn (r_nvife r) (r_vife r)) = r_nvife r) by (rewrite firstn_length; lia).
  unfold repack. change (r_dif r :: ?x) with ([r_dif r] ++ x). change (r_vif r :: ?x) with ([r_vif r] ++ x).
  apply (written_trans d d1); [assumption|]. cbn [length].
  apply (written_trans d1 d2); [assumption|]. rewrite F1.
  apply (written_trans d2 d3); [assumption|]. cbn [length].
  apply (written_trans d3 d4); [assumption|]. rewrite F2. assumption.
Qed.
Lemma pack_records_ok : forall rs d n, Forall rec_bounds rs -> (n + length (flat_map repack rs) <= length d)%nat ->
  exists d', pack_records d n rs = Ok (d', (n + length (flat_map repack rs))%nat) /\ written d d' n (flat_map repack rs).
Proof.
  induction rs as [|r rs IH]; intros d n B H; cbn [pack_records flat_map] in *.
  - exists d. split; [cbn; f_equal; f_equal; lia|]. split; [reflexivity|]. cbn [length]. rewrite Nat.add_0_r, app_nil_r. reflexivity.
  - inversion_clear B as [|? ? B1 B2]. rewrite app_length in *.
    destruct (pack_record_ok d n r B1 ltac:(lia)) as (d1 & E1 & W1). rewrite E1. cbn [bind].
    pose proof W1 as [L1 _].
    destruct (IH d1 (n + length (repack r))%nat B2 ltac:(lia)) as (d2 & E2 & W2). rewrite E2.
    exists d2. split; [f_equal; f_equal; lia|]. apply (written_trans d d1); assumption.
Qed.

Lemma repack_plain its : Forall plain_item its -> flat_map repack (objs its) = flat_map enc_item its.
Proof.
  induction its as [|it its IH]; intros H; [reflexivity|]. inversion_clear H as [|? ? H1 H2].
  destruct it as [|a]; [destruct H1|]. unfold objs. cbn [flat_map objs_item app enc_item]. fold (objs its).
  rewrite (IH H2). f_equal. cbn [plain_item] in H1.
  unfold repack, obj, enc_rec. cbn [r_dif r_ndife r_dife r_vif r_nvife r_vife r_len r_data].
  rewrite !firstn_pad, H1. reflexivity.
Qed.

Lemma internal_pack_general f fd h rs : length (fdata f) = 252%nat -> d_type fd = DT_VARIABLE ->
  v_header (d_var fd) = h -> v_records (d_var fd) = rs -> length h = 12%nat -> Forall rec_bounds rs ->
  (12 + length (flat_map repack rs) <= 252)%nat ->
  exists f', mbus_frame_internal_pack f fd = Ok (0, f') /\
    data_size f' = Z.of_nat (12 + length (flat_map repack rs)) /\
    firstn (12 + length (flat_map repack rs)) (fdata f') = h ++ flat_map repack rs /\ length (fdata f') = 252%nat.
Proof.
  intros HL Ht Hh Hr L12 HB Hlen. unfold mbus_frame_internal_pack. rewrite Ht. unfold DT_VARIABLE, DT_ERROR, DT_FIXED.
  change (2 =? 3) with false. change (2 =? 1) with false. change (2 =? 2) with true. cbv iota.
  rewrite Hh, Hr. rewrite put_list_ok by lia. cbn [bind firstn app].
  pose proof (splice_written (fdata f) 0 h ltac:(lia)) as W1. cbn [firstn app Nat.add] in W1.
  pose proof W1 as [L1 F1]. change (0 + length h)%nat with (length h).
  set (d1 := h ++ skipn (length h) (fdata f)) in *.
  destruct (pack_records_ok rs d1 12 HB ltac:(lia)) as (d2 & E2 & W2). rewrite E2. cbn [bind].
  eexists. split; [reflexivity|]. cbn [set_data data_size fdata]. split; [reflexivity|].
  destruct W2 as [L2 F2]. split; [|lia]. rewrite F2. f_equal. rewrite <- L12. exact F1.
Qed.

Lemma repack_ok f p fd0 fd : carries f p -> d_type fd = DT_VARIABLE ->
  mbus_data_variable_parse f fd0 = Ok (0, d_var fd) ->
  forall h its, p = h ++ enc_body its None -> length h = 12%nat -> Forall wf_item its -> Forall plain_item its ->
  forall g, length (fdata g) = 252%nat ->
  exists g', mbus_frame_internal_pack g fd = Ok (0, g') /\ data_size g' = Z.of_nat (length p) /\
             firstn (length p) (fdata g') = p.
Proof.
  intros Hc Ht H h its -> Hh Hw Hp g Hg.
  rewrite (parse_encoded f h its None fd0 Hc Hh Hw I) in H. apply ok_inj2 in H. destruct H as [_ H].
  assert (E : flat_map repack (objs its ++ objs_tail None) = enc_body its None).
  { cbn [objs_tail]. unfold enc_body. cbn [enc_tail]. rewrite !app_nil_r. apply repack_plain. assumption. }
  pose proof Hc as (_ & _ & _ & _ & Hle). unfold DATA_LEN in Hle. rewrite app_length, Hh in *.
  destruct (internal_pack_general g fd h (objs its ++ objs_tail None) Hg Ht) as (g' & E1 & E2 & E3 & _).
  - rewrite <- H. reflexivity.
  - rewrite <- H. reflexivity.
  - assumption.
  - apply objs_bounds; [assumption|exact I].
  - rewrite E. lia.
  - exists g'. rewrite E in *. auto.
Qed.

Lemma repack_fixed f p df x fd : carries f p -> mbus_data_fixed_parse f df = Ok (0, x) -> d_type fd = DT_FIXED -> d_fix fd = x ->
  forall g, length (fdata g) = 252%nat ->
  exists g', mbus_frame_internal_pack g fd = Ok (0, g') /\ data_size g' = 16 /\ firstn 16 (fdata g') = p.
Proof.
  intros Hc H Ht Hx g Hg. destruct (fixed_spec f p df Hc) as [S1 S2].
  destruct (Nat.eq_dec (length p) 16) as [E|E]; [|rewrite (S2 E) in H; discriminate].
  destruct (S1 E) as (x' & E' & Hp & A & B & C). rewrite E' in H. apply ok_inj2 in H. destruct H as [_ <-].
  unfold mbus_frame_internal_pack. rewrite Ht. unfold DT_FIXED, DT_ERROR.
  change (1 =? 3) with false. change (1 =? 1) with true. cbv iota. rewrite Hx, <- Hp.
  rewrite put_list_ok by lia. cbn [bind]. eexists. split; [reflexivity|]. cbn [set_data data_size fdata].
  split; [reflexivity|]. change (firstn 0 (fdata g)) with (@nil Z). apply (firstn_app_exact p). auto.
Qed.


Lemma storage_loop_UB : forall k j l bit r, (1 <= k)%nat -> 32 <= bit + 4 * (Z.of_nat k - 1) -> storage_loop k j l bit r = UB.
Proof.
  induction k as [|k IH]; intros j l bit r Hk Hb; [lia|]. cbn [storage_loop].
  destruct (rd l j) as [b|]; cbn [bind]; [|reflexivity].
  unfold int_shl. destruct (Z.leb_spec 32 bit); [reflexivity|].
  destruct (int_op (Z.land b 0x0F * 2 ^ bit)); cbn [bind]; [|reflexivity].
  apply IH; lia.
Qed.
