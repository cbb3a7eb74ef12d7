(** Properties C47, C48, C55: units and normalisation. *)
From Coq Require Import String.
From Coq Require Import List.
From Coq Require Import Qabs Qpower.
From Verif Require Import CBase PBase CStr MFrame MCodec MVar MText MUnit SText SCodec SVar SUnit PCodec PCodec2 PVar3 PText PDouble.

Fixpoint zlist_eqb (a b : list Z) : bool :=
  match a, b with
  | [], [] => true
  | x :: a', y :: b' => if x =? y then zlist_eqb a' b' else false
  | _, _ => false
  end.
Lemma zlist_eqb_eq a b : zlist_eqb a b = true -> a = b.
Proof.
  revert b. induction a as [|x a IH]; intros [|y b]; cbn [zlist_eqb]; try discriminate; [reflexivity|].
  destruct (Z.eqb_spec x y); [|discriminate]. intros H. f_equal; auto.
Qed.
(** The rest after a prefix. *)
Fixpoint strip (s t : list Z) : option (list Z) :=
  match s, t with
  | [], _ => Some t
  | x :: s', y :: t' => if x =? y then strip s' t' else None
  | _, _ => None
  end.
Lemma strip_ok s t r : strip s t = Some r -> t = s ++ r.
Proof.
  revert t. induction s as [|x s IH]; intros [|y t]; cbn [strip]; try discriminate; try (intros H; injection H as <-; reflexivity).
  destruct (Z.eqb_spec x y); [|discriminate]. intros H. cbn. f_equal; auto.
Qed.
Fixpoint any {A} (p : A -> bool) (l : list A) : bool :=
  match l with [] => false | x :: l' => if p x then true else any p l' end.
Lemma any_ok {A} (p : A -> bool) l : any p l = true -> exists x, In x l /\ p x = true.
Proof.
  induction l as [|x l IH]; cbn [any]; [discriminate|]. destruct (p x) eqn:E; [intros _; exists x; cbn; auto|].
  intros H. destruct (IH H) as (y & H1 & H2). exists y. cbn. auto.
Qed.
Definition row_is (o : option urow) (m : meaning) : bool :=
  match o with
  | Some r => zlist_eqb (u_unit r) (m_unit m) && zlist_eqb (u_quantity r) (m_quantity m) && Qeq_bool (u_exponent r) (m_factor m)
  | None => false
  end.
Lemma row_is_spec o m : row_is o m = true ->
  exists r, o = Some r /\ u_unit r = m_unit m /\ u_quantity r = m_quantity m /\ (u_exponent r == m_factor m)%Q.
Proof.
  destruct o as [r|]; [|discriminate]. cbn. intros H. apply andb_true_iff in H. destruct H as [H H3]. apply andb_true_iff in H. destruct H as [H1 H2].
  exists r. split; [reflexivity|]. split; [apply zlist_eqb_eq; assumption|]. split; [apply zlist_eqb_eq; assumption|apply Qeq_bool_eq; assumption].
Qed.
(** All codes below [n]. *)
Definition codes (n : nat) : list Z := map Z.of_nat (seq 0 n).
Lemma codes_in n c : 0 <= c < Z.of_nat n -> In c (codes n).
Proof. intros H. apply in_map_iff. exists (Z.to_nat c). split; [lia|]. apply in_seq. lia. Qed.
Lemma codes_all n (p : Z -> bool) : forallb p (codes n) = true -> forall c, 0 <= c < Z.of_nat n -> p c = true.
Proof. intros H c Hc. rewrite forallb_forall in H. apply H, codes_in, Hc. Qed.

(** A product with a table constant. *)
Lemma scale_row n x y f r : (n <= 20)%positive -> near n x y -> (u_exponent r == f)%Q -> scales x f 0 (rmul y (dround (u_exponent r))).
Proof.
  intros Hn N E. pose proof (near_scales n x y (u_exponent r) Hn N) as K. destruct x, y; cbn in K |- *; auto.
  apply (accurate_eq (q * u_exponent r) _ 0 0); [rewrite E; reflexivity|reflexivity|exact K].
Qed.

(** ** C47 *)
Definition fd_gap (c : Z) : bool := c =? 0x30.
Definition fb_gap (c : Z) : bool := (c =? 0x08) || (c =? 0x09) || (c =? 0x30) || (c =? 0x31) || (c =? 0x79).
Definition checks (spec : Z -> option meaning) (gap : Z -> bool) (base : Z) : bool :=
  forallb (fun c => match spec c with None => true | Some m => gap c || row_is (find_row vif_table (base + c)) m end) (codes 128).
Lemma checks_ok spec gap base : checks spec gap base = true -> forall c m, 0 <= c < 128 -> spec c = Some m -> gap c = false ->
  exists r, find_row vif_table (base + c) = Some r /\ u_unit r = m_unit m /\ u_quantity r = m_quantity m /\ (u_exponent r == m_factor m)%Q.
Proof.
  intros H c m Hc Hs Hg. pose proof (codes_all 128 _ H c ltac:(lia)) as K. cbv beta in K. rewrite Hs, Hg in K. apply row_is_spec. exact K.
Qed.
Lemma main_checked : checks main_vif (fun _ => false) 0 = true. Proof. vm_compute. reflexivity. Qed.
Lemma fd_checked : checks fd_vif fd_gap 0x100 = true. Proof. vm_compute. reflexivity. Qed.
Lemma fb_checked : checks fb_vif fb_gap 0x200 = true. Proof. vm_compute. reflexivity. Qed.

Lemma land_mod128 c : is_byte c -> Z.land c 0x7F = c mod 128.
Proof. intros _. exact (Z.land_ones c 7 ltac:(lia)). Qed.
Lemma norm_code base c : 0 <= c < 128 -> base = 0 \/ base = 0x100 \/ base = 0x200 -> Z.land (base + c) 0xF7F = base + c.
Proof.
  intros Hc Hb. assert (K : forallb (fun c => (Z.land (0 + c) 0xF7F =? 0 + c) && (Z.land (0x100 + c) 0xF7F =? 0x100 + c) && (Z.land (0x200 + c) 0xF7F =? 0x200 + c)) (codes 128) = true) by (vm_compute; reflexivity).
  pose proof (codes_all 128 _ K c ltac:(lia)) as L. cbv beta in L. destruct Hb as [->|[->| ->]]; lia.
Qed.
Lemma lor_code base c : 0 <= c < 128 -> base = 0x100 \/ base = 0x200 -> Z.lor c base = base + c.
Proof.
  intros Hc Hb. assert (K : forallb (fun c => (Z.lor c 0x100 =? 0x100 + c) && (Z.lor c 0x200 =? 0x200 + c)) (codes 128) = true) by (vm_compute; reflexivity).
  pose proof (codes_all 128 _ K c ltac:(lia)) as L. cbv beta in L. destruct Hb as [->| ->]; lia.
Qed.

(** C47: the main table, for every value: factor, unit and quantity are those of the standard; the extension bit is
    ignored. *)
Theorem C47_main_table :
  forall vif m value, 0 <= vif < 256 -> main_vif (vif mod 128) = Some m ->
  exists x, mbus_vif_unit_normalize vif value = (0, m_unit m, x, m_quantity m) /\ scales value (m_factor m) 0 x.
Proof.
  intros vif m value Hv Hm. unfold mbus_vif_unit_normalize.
  replace (Z.land vif 0xF7F) with (0 + vif mod 128).
  2:{ assert (K : forallb (fun c => Z.land c 0xF7F =? c mod 128) (codes 256) = true) by (vm_compute; reflexivity).
      pose proof (codes_all 256 _ K vif ltac:(lia)) as L. cbv beta in L. lia. }
  destruct (checks_ok _ _ _ main_checked (vif mod 128) m ltac:(lia) Hm eq_refl) as (r & E & U & Qu & Ex). rewrite E, U, Qu.
  eexists. split; [reflexivity|]. apply (scale_row 1); [lia|apply near_refl|assumption].
Qed.

Lemma correction_spec vif v0 n x y : is_byte vif -> is_byte v0 -> vif >= 128 -> vif <> 0xFD -> vif <> 0xFB ->
  (n <= 14)%positive -> near n x y -> scales x (correction vif v0) (offset vif v0) (vife_correction v0 y).
Proof.
  intros Hv H0 Hx N1 N2 Hn Nr. unfold correction, offset. replace ((vif <? 128) || (vif =? 0xFD) || (vif =? 0xFB)) with false by lia.
  assert (K : forallb (fun c =>
      let k := Z.land c 0x7F in
      (if MText.between 0x70 0x77 k then ((0x70 <=? c mod 128) && (c mod 128 <=? 0x77)) && (Z.land c 0x07 - 6 =? c mod 128 - 0x70 - 6)
       else negb ((0x70 <=? c mod 128) && (c mod 128 <=? 0x77)) &&
       if MText.between 0x78 0x7B k then ((0x78 <=? c mod 128) && (c mod 128 <=? 0x7B)) && (Z.land c 0x03 - 3 =? c mod 128 - 0x78 - 3) && negb (c mod 128 =? 0x7D)
       else negb ((0x78 <=? c mod 128) && (c mod 128 <=? 0x7B)) && Bool.eqb (k =? 0x7D) (c mod 128 =? 0x7D))) (codes 256) = true) by (vm_compute; reflexivity).
  pose proof (codes_all 256 _ K v0 ltac:(unfold is_byte in H0; lia)) as L. clear K. cbv zeta beta in L. unfold vife_correction. cbv zeta.
  assert (P10 : forall e, exists f, pow10 e = dround f /\ (f == ten e)%Q).
  { assert (PW : forall n, 0 <= n -> (Qpower 10 n == inject_Z (10 ^ n))%Q) by (intros n0 Hn0; exact (Qeq_sym _ _ (Zpower_Qpower 10 n0 Hn0))).
    intros e. unfold pow10. eexists. split; [reflexivity|]. unfold ten. destruct (Z.ltb_spec e 0).
    - replace e with (- (- e)) at 2 by lia. rewrite Qpower_opp. rewrite PW by lia.
      assert (P0 : 0 < 10 ^ (- e)) by (apply Z.pow_pos_nonneg; lia). destruct (10 ^ (- e)) as [|p|p]; try lia. reflexivity.
    - symmetry. apply PW. assumption. }
  set (c := v0 mod 128) in *. destruct (MText.between 0x70 0x77 (Z.land v0 0x7F)).
  - apply andb_true_iff in L. destruct L as [L1 L2]. rewrite L1. apply Z.eqb_eq in L2. rewrite L2. destruct (P10 (c - 0x70 - 6)) as (f & -> & Ef).
    replace ((0x78 <=? c) && (c <=? 0x7B)) with false by lia. pose proof (near_scales n x y f ltac:(lia) Nr) as S. destruct x, y; cbn in S |- *; auto.
    apply (accurate_eq (q * f) _ 0 0); [rewrite Ef; reflexivity|reflexivity|exact S].
  - apply andb_true_iff in L. destruct L as [L1 L]. apply negb_true_iff in L1. rewrite L1. destruct (MText.between 0x78 0x7B (Z.land v0 0x7F)).
    + apply andb_true_iff in L. destruct L as [L L3]. apply andb_true_iff in L. destruct L as [L2 L4]. apply Z.eqb_eq in L4. rewrite L2, L4.
      apply negb_true_iff in L3. rewrite L3. destruct (P10 (c - 0x78 - 3)) as (f & -> & Ef). destruct x, y; cbn in Nr |- *; auto.
      apply (accurate_eq q _ f _); [ring|exact Ef|]. apply err_add. apply (within_weaken (err n)); [unfold err, Qle; cbn [Qnum Qden]; lia|assumption].
    + apply andb_true_iff in L. destruct L as [L2 L3]. apply negb_true_iff in L2. rewrite L2. apply eqb_prop in L3. rewrite L3.
      destruct (c =? 0x7D); destruct x, y; cbn in Nr |- *; auto; change (ten 3) with (inject_Z 1000).
      * apply (err_accurate (n + 5)); [lia|]. apply (err_scale n); try lia. assumption.
      * apply (accurate_eq q _ 0 _); [ring|reflexivity|]. apply (err_accurate n); [lia|assumption].
Qed.

(** Codes whose unit, quantity or factor in the tables differ from the standard. *)
Definition wrong_code (vif vife0 : Z) : Prop :=
  (vif = 0xFD /\ vife0 mod 128 = 0x30) \/
  (vif = 0xFB /\ In (vife0 mod 128) [0x08; 0x09; 0x30; 0x31; 0x79]).

Lemma vib_scaled : forall r vife0 rest m exact value, is_byte (r_vif r) -> is_byte vife0 -> r_vife r = vife0 :: rest -> (128 <= r_vif r -> (1 <= r_nvife r)%nat) ->
  vib_meaning (r_vif r) vife0 = Some m -> ~ wrong_code (r_vif r) vife0 -> near 4 exact value ->
  exists x, mbus_vib_unit_normalize r value = Ok (Some (m_unit m, x, m_quantity m)) /\
    scales exact (m_factor m * correction (r_vif r) vife0) (offset (r_vif r) vife0) x.
Proof.
  intros r v0 rest m exact value Hv H0 Er Hn Hm Hw Nr.
  assert (ONE : forall f row, (u_exponent row == f)%Q -> scales exact (f * 1) 0 (rmul value (dround (u_exponent row)))).
  { intros f row Ef. apply (scale_row 4); [lia|assumption|]. rewrite Ef. ring. }
 unfold mbus_vib_unit_normalize. rewrite Er. cbn [rd nth_error bind].
  unfold vib_meaning in Hm. rewrite (land_mod128 v0 H0), (land_mod128 (r_vif r) Hv). unfold is_byte in *.
  destruct (Z.eqb_spec (r_vif r) 0xFD) as [E|N1].
  { destruct (Nat.eqb_spec (r_nvife r) 0); [lia|]. rewrite lor_code by lia. unfold mbus_vif_unit_normalize. rewrite norm_code by lia.
    destruct (checks_ok _ _ _ fd_checked (v0 mod 128) m ltac:(lia) Hm) as (row & F & U & Qu & Ex).
    { unfold fd_gap. destruct (Z.eqb_spec (v0 mod 128) 0x30); [exfalso; apply Hw; left; auto|reflexivity]. }
    rewrite F, U, Qu. cbn [Z.eqb]. rewrite E. cbn [negb andb Z.eqb Pos.eqb Z.land Pos.land]. eexists. split; [reflexivity|].
    unfold correction, offset. cbn [orb Z.ltb Z.compare Pos.compare Pos.compare_cont Z.eqb Pos.eqb]. apply ONE; assumption. }
  destruct (Z.eqb_spec (r_vif r) 0xFB) as [E|N2].
  { destruct (Nat.eqb_spec (r_nvife r) 0); [lia|]. rewrite lor_code by lia. unfold mbus_vif_unit_normalize. rewrite norm_code by lia.
    destruct (checks_ok _ _ _ fb_checked (v0 mod 128) m ltac:(lia) Hm) as (row & F & U & Qu & Ex).
    { unfold fb_gap. apply not_true_iff_false. intros G. apply Hw. right. split; [assumption|]. cbn [In]. lia. }
    rewrite F, U, Qu. cbn [Z.eqb]. rewrite E. cbn [negb andb Z.eqb Pos.eqb Z.land Pos.land]. eexists. split; [reflexivity|].
    unfold correction, offset. cbn [orb Z.ltb Z.compare Pos.compare Pos.compare_cont Z.eqb Pos.eqb]. apply ONE; assumption. }
  destruct (checks_ok _ _ _ main_checked (r_vif r mod 128) m ltac:(lia) Hm eq_refl) as (row & F & U & Qu & Ex).
  assert (NC : (r_vif r =? 0x7C) || (r_vif r =? 0xFC) = false).
  { apply not_true_iff_false. intros G. assert (E : r_vif r mod 128 = 0x7C) by lia. rewrite E in Hm. vm_compute in Hm. discriminate. }
  rewrite NC. unfold mbus_vif_unit_normalize. rewrite <- (Z.add_0_l (r_vif r mod 128)), norm_code by lia. rewrite F, U, Qu. cbn [Z.eqb].
  assert (HB : negb (Z.land (r_vif r) 128 =? 0) = negb (r_vif r <? 128)).
  { assert (K : forallb (fun c => Bool.eqb (negb (Z.land c 128 =? 0)) (negb (c <? 128))) (codes 256) = true) by (vm_compute; reflexivity).
    exact (eqb_prop _ _ (codes_all 256 _ K (r_vif r) ltac:(lia))). }
  rewrite HB. destruct (Z.ltb_spec (r_vif r) 128) as [L|G]; cbn [negb andb].
  - eexists. split; [reflexivity|]. unfold correction, offset. replace (r_vif r <? 128) with true by lia. cbn [orb].
    apply ONE; assumption.
  - eexists. split; [reflexivity|].
    destruct exact as [q|s0 n0], value as [v|s1 n1]; cbn in Nr; try contradiction.
    + pose proof (correction_spec (r_vif r) v0 14 (Num (q * m_factor m)) (rmul (Num v) (dround (u_exponent row))) ltac:(unfold is_byte; lia) H0 ltac:(lia) N1 N2 ltac:(lia)) as C.
      assert (C0 : near 14 (Num (q * m_factor m)) (rmul (Num v) (dround (u_exponent row)))).
      { apply (within_eq _ (q * u_exponent row)); [rewrite Ex; reflexivity|]. apply (err_mul 4); try lia. assumption. }
      specialize (C C0). destruct (vife_correction _ _); cbn in C |- *; [|contradiction].
      apply (accurate_eq (q * m_factor m * correction (r_vif r) v0) _ (offset (r_vif r) v0) _); [ring|reflexivity|exact C].
    + exact (correction_spec (r_vif r) v0 14 (NonFinite s0 n0) (NonFinite s1 n1) ltac:(unfold is_byte; lia) H0 ltac:(lia) N1 N2 ltac:(lia) Nr).
Qed.

(** C47: for the value information of a record whose code is assigned by the standard: unit and quantity of the
    standard, the value scaled by the factor of the code and corrected by the first combinable extension. The
    additive correction is applied in base units. Partial: six codes of the extension tables are wrong. *)
Theorem C47_record_partial :
  forall r vife0 rest m value, is_byte (r_vif r) -> is_byte vife0 -> r_vife r = vife0 :: rest -> (128 <= r_vif r -> (1 <= r_nvife r)%nat) ->
  vib_meaning (r_vif r) vife0 = Some m -> ~ wrong_code (r_vif r) vife0 ->
  exists x, mbus_vib_unit_normalize r value = Ok (Some (m_unit m, x, m_quantity m)) /\
    scales value (m_factor m * correction (r_vif r) vife0) (offset (r_vif r) vife0) x.
Proof. intros r v0 rest m value Hv H0 Er Hn Hm Hw. exact (vib_scaled r v0 rest m value value Hv H0 Er Hn Hm Hw (near_refl 4 value)). Qed.

(** C47 fails for six codes of the extension tables (findings): FD 30 (start of tariff) is "Reserved", FB 08 and 09
    (0.1 and 1 GJ) have the unit "Reserved", FB 30 and 31 (0.1 and 1 GJ/h) the unit "J", FB 79 (0.01 W) the factor of
    FB 78. *)
Definition fd_record (vife0 : Z) : rec := mkRec 4 [] 0 0xFD [vife0] 1 [] [0xE8; 0x03; 0; 0] 4.
Definition fb_record (vife0 : Z) : rec := mkRec 4 [] 0 0xFB [vife0] 1 [] [0xE8; 0x03; 0; 0] 4.
Theorem C47_refuted :
  (exists m u x q, vib_meaning 0xFD 0x30 = Some m /\ mbus_vib_unit_normalize (fd_record 0x30) (real_of 1000) = Ok (Some (u, x, q)) /\
     u <> m_unit m /\ q <> m_quantity m) /\
  (forall c, In c [0x08; 0x09; 0x30; 0x31] -> exists m u x q, vib_meaning 0xFB c = Some m /\
     mbus_vib_unit_normalize (fb_record c) (real_of 1000) = Ok (Some (u, x, q)) /\ u <> m_unit m) /\
  (exists m u x q, vib_meaning 0xFB 0x79 = Some m /\ mbus_vib_unit_normalize (fb_record 0x79) (real_of 1000) = Ok (Some (u, x, q)) /\
     ~ scales (real_of 1000) (m_factor m) 0 x).
Proof.
  split; [|split].
  - eexists _, _, _, _. repeat split; try (vm_compute; reflexivity); vm_compute; discriminate.
  - intros c H. cbn [In] in H. destruct H as [<-|[<-|[<-|[<-|[]]]]]; eexists _, _, _, _; (split; [vm_compute; reflexivity|split; [vm_compute; reflexivity|vm_compute; discriminate]]).
  - eexists _, _, _, _. split; [vm_compute; reflexivity|split; [vm_compute; reflexivity|vm_compute; intros H; apply H; reflexivity]].
Qed.
Print Assumptions C47_main_table.
Print Assumptions C47_record_partial.
Print Assumptions C47_refuted.
(** 1000 at VIF 93 (10^-3 m^3), VIFE 75 (times 10^-1): 0.1 m^3. *)
Example C47_nonvacuous :
  let r := mkRec 4 [] 0 0x93 [0x75] 1 [] [0xE8; 0x03; 0; 0] 4 in
  exists m x, vib_meaning (r_vif r) 0x75 = Some m /\ ~ wrong_code (r_vif r) 0x75 /\ m_unit m = cstr "m^3" /\
    mbus_vib_unit_normalize r (real_of 1000) = Ok (Some (cstr "m^3", x, cstr "Volume")) /\ exists y, x = Num y /\ (y == 3602879701896397 # 36028797018963968)%Q.
Proof.
  eexists _, _. split; [vm_compute; reflexivity|]. split; [intros [[H _]|[H _]]; vm_compute in H; discriminate|].
  split; [reflexivity|]. split; [vm_compute; reflexivity|]. eexists. split; [vm_compute; reflexivity|]. vm_compute. reflexivity.
Qed.

(** ** C48 *)
(** Multiples for the search below. *)
Definition multiples : list (list Z * Z) :=
  ([], 0) :: map (fun p => (cstr (fst p), snd p))
    [("m", -3); ("10 m", -2); ("100 m", -1); ("my", -6); ("10 ", 1); ("100 ", 2); ("k", 3); ("10 k", 4); ("100 k", 5); ("M", 6); ("10 M", 7); ("100 M", 8);
     ("G", 9); ("10 G", 10); ("100 G", 11)]%string
  ++ map (fun e => (cstr "1e" ++ fmt_d e ++ cstr " ", e)) (map (fun n => n - 12) (codes 25)).
Lemma multiples_ok s e : In (s, e) multiples -> multiple s e.
Proof.
  unfold multiples. intros [H|H]; [injection H as <- <-; constructor|]. apply in_app_iff in H. destruct H as [H|H].
  - apply in_map_iff in H. destruct H as ([t k] & E & K). cbn [fst snd] in E. injection E as <- <-. apply mu_text. exact K.
  - apply in_map_iff in H. destruct H as (k & E & K). injection E as <- <-. apply mu_power, fmt_d_read.
Qed.
Definition fixed_text_b (t : list Z) (f : Q) (unit : list Z) : bool :=
  any (fun p => match strip (fst p) t with
    | Some r => any (fun b => if zlist_eqb r (fst (fst b)) then zlist_eqb unit (snd b) && Qeq_bool f (ten (snd p + snd (fst b))) else false) fixed_bases
    | None => false end) multiples.
Lemma fixed_text_b_ok t f unit : fixed_text_b t f unit = true -> fixed_text t f unit.
Proof.
  intros H. apply any_ok in H. destruct H as ([s e] & M & H). cbn [fst snd] in H. destruct (strip s t) as [r|] eqn:S0; [|discriminate]. apply strip_ok in S0.
  apply any_ok in H. destruct H as ([[b be] u] & B & H). cbn [fst snd] in H. destruct (zlist_eqb r b) eqn:H1; [|discriminate].
  apply andb_true_iff in H. destruct H as [H2 H3].
  apply zlist_eqb_eq in H1. apply zlist_eqb_eq in H2. apply Qeq_bool_eq in H3. subst. exists s, e, b, be. auto using multiples_ok.
Qed.
Definition scaled_fixed (c : Z) : Prop := 0x02 <= c <= 0x38.

(** C48, the texts: every scaled unit code has a text that is the standard's factor times the standard's unit. Partial:
    0D and 0E are exchanged. *)
Theorem C48_text_partial :
  forall b m, is_byte b -> scaled_fixed (b mod 64) -> ~ In (b mod 64) [0x0D; 0x0E] -> fixed_unit (b mod 64) = Some m ->
  fixed_text (mbus_data_fixed_unit b) (m_factor m) (m_unit m).
Proof.
  intros b m Hb Hs Hn Hm. apply fixed_text_b_ok. unfold is_byte, scaled_fixed in *.
  assert (K : forallb (fun b => (b mod 64 <? 0x02) || (0x38 <? b mod 64) || (b mod 64 =? 0x0D) || (b mod 64 =? 0x0E) ||
    match fixed_unit (b mod 64) with Some m => fixed_text_b (mbus_data_fixed_unit b) (m_factor m) (m_unit m) | None => false end) (codes 256) = true) by (vm_compute; reflexivity).
  pose proof (codes_all 256 _ K b ltac:(lia)) as L. clear K. cbv beta in L. rewrite Hm in L. cbn [In] in Hn.
  destruct (fixed_text_b _ _ _); [reflexivity|]. lia.
Qed.
(** C48, every scaled code is assigned, so the theorem above covers it. *)
Lemma fixed_unit_total c : scaled_fixed c -> exists m, fixed_unit c = Some m.
Proof.
  intros H. unfold scaled_fixed in H. assert (K : forallb (fun c => (c <? 2) || match fixed_unit c with Some _ => true | None => false end) (codes 57) = true) by (vm_compute; reflexivity).
  pose proof (codes_all 57 _ K c ltac:(lia)) as L. cbv beta in L. destruct (fixed_unit c) as [m|]; [eauto|]. lia.
Qed.
(** The other texts. *)
Theorem C48_text_others :
  mbus_data_fixed_unit 0x00 = cstr "h,m,s" /\ mbus_data_fixed_unit 0x01 = cstr "D,M,Y" /\ mbus_data_fixed_unit 0x39 = cstr "units for HCA" /\
  (forall c, 0x3A <= c <= 0x3D -> mbus_data_fixed_unit c = cstr "reserved") /\ mbus_data_fixed_unit 0x3E = cstr "reserved but historic" /\
  mbus_data_fixed_unit 0x3F = cstr "without units" /\
  forall b, is_byte b -> mbus_data_fixed_unit b = mbus_data_fixed_unit (b mod 64).
Proof.
  repeat split; try reflexivity.
  - intros c H. assert (C : c = 0x3A \/ c = 0x3B \/ c = 0x3C \/ c = 0x3D) by lia. destruct C as [->|[->|[->| ->]]]; reflexivity.
  - intros b H. assert (K : forallb (fun b => zlist_eqb (mbus_data_fixed_unit b) (mbus_data_fixed_unit (b mod 64))) (codes 256) = true) by (vm_compute; reflexivity).
    apply zlist_eqb_eq. exact (codes_all 256 _ K b ltac:(unfold is_byte in H; lia)).
Qed.

(** Codes whose row in the normalisation table differs from the standard. *)
Definition wrong_fixed (c : Z) : Prop := 0x15 <= c <= 0x25 \/ c = 0x2F \/ c = 0x30.

(** C48, the normaliser: for every value, factor, unit and quantity of the standard. Partial: 19 codes are wrong. *)
Theorem C48_normalize_partial :
  forall b m value, is_byte b -> fixed_unit (b mod 64) = Some m -> ~ wrong_fixed (b mod 64) ->
  exists x, mbus_fixed_normalize b value = (0, m_unit m, Some x, m_quantity m) /\ scales (Num (inject_Z value)) (m_factor m) 0 x.
Proof.
  intros b m value Hb Hm Hw. unfold is_byte, wrong_fixed in *.
  assert (K : forallb (fun c => match fixed_unit c with None => true | Some m => (((0x15 <=? c) && (c <=? 0x25)) || (c =? 0x2F) || (c =? 0x30)) || (negb (c =? 0) && negb (c =? 1) && row_is (find_row fixed_table c) m) end) (codes 64) = true) by (vm_compute; reflexivity).
  pose proof (codes_all 64 _ K (b mod 64) ltac:(lia)) as L. clear K. cbv beta in L. rewrite Hm in L.
  unfold mbus_fixed_normalize. change 0x3F with (Z.ones 6). rewrite Z.land_ones by lia. change (2 ^ 6) with 64. cbv zeta.
  destruct (row_is (find_row fixed_table (b mod 64)) m) eqn:R; [|lia]. apply row_is_spec in R. destruct R as (r & E & U & Qu & Ex).
  destruct (Z.eqb_spec (b mod 64) 0); [lia|]. destruct (Z.eqb_spec (b mod 64) 1); [lia|]. rewrite E, U, Qu.
  eexists. split; [reflexivity|]. apply (scale_row 4 (Num (inject_Z value))); [lia|apply near_of|assumption].
Qed.
(** Times (00, 01) and reserved codes: times are refused, reserved codes give 0. *)
Theorem C48_normalize_others :
  forall b value, is_byte b ->
  (b mod 64 <= 1 -> exists u q, mbus_fixed_normalize b value = (-2, u, None, q)) /\
  (0x3A <= b mod 64 <= 0x3D -> exists x, mbus_fixed_normalize b value = (0, cstr "Reserved", Some x, cstr "Reserved") /\ scales (Num 0) 1 0 x).
Proof.
  intros b value Hb. unfold is_byte in *. unfold mbus_fixed_normalize. change 0x3F with (Z.ones 6). rewrite Z.land_ones by lia. change (2 ^ 6) with 64. cbv zeta. split; intros H.
  - assert (C : b mod 64 = 0 \/ b mod 64 = 1) by lia. destruct C as [-> | ->]; eexists _, _; reflexivity.
  - assert (C : b mod 64 = 0x3A \/ b mod 64 = 0x3B \/ b mod 64 = 0x3C \/ b mod 64 = 0x3D) by lia.
    destruct C as [->|[->|[->| ->]]]; (eexists; split; [reflexivity|]; apply (accurate_eq (inject_Z value * (0 # 1)) _ 0 0); [unfold Qeq; cbn; lia|reflexivity|]; exact (near_scales 4 _ (real_of value) (0 # 1) ltac:(lia) (near_of value))).
Qed.
(** C48 fails (findings): the texts of 0D and 0E are exchanged ("MJ" for 100 kJ and the other way round); a value in
    10 W ... 100 MW (15-1C) is not scaled; J/h (1D-25) is called an energy; 2F (ml/h) is scaled by 10^-5 instead of
    10^-6; 30 (10 ml/h) is unknown. *)
Theorem C48_refuted :
  (forall c, In c [0x0D; 0x0E] -> forall m, fixed_unit c = Some m -> ~ fixed_text (mbus_data_fixed_unit c) (m_factor m) (m_unit m)) /\
  (forall c value m, 0x15 <= c <= 0x1C -> fixed_unit c = Some m -> exists x, mbus_fixed_normalize c value = (0, m_unit m, Some x, m_quantity m) /\ scales (Num (inject_Z value)) 1 0 x /\ (10 <= m_factor m)%Q) /\
  (forall c value m, 0x1D <= c <= 0x25 -> fixed_unit c = Some m -> exists x, mbus_fixed_normalize c value = (0, m_unit m, Some x, cstr "Energy") /\ m_quantity m = cstr "Power") /\
  (forall value m, fixed_unit 0x2F = Some m -> exists x, mbus_fixed_normalize 0x2F value = (0, m_unit m, Some x, m_quantity m) /\ scales (Num (inject_Z value)) (10 * m_factor m) 0 x) /\
  (forall value, fst (fst (fst (mbus_fixed_normalize 0x30 value))) = -1).
Proof.
  split; [|split; [|split; [|split]]].
  - intros c Hc m Hm (s & e & b & be & E & M & B & F).
    assert (Hu : (c = 0x0D /\ m = mkM (ten 5) (cstr "J") (cstr "Energy") /\ mbus_data_fixed_unit c = cstr "MJ") \/
                 (c = 0x0E /\ m = mkM (ten 6) (cstr "J") (cstr "Energy") /\ mbus_data_fixed_unit c = cstr "100 kJ")).
    { cbn [In] in Hc. destruct Hc as [<-|[<-|[]]]; vm_compute in Hm; injection Hm as <-; [left|right]; repeat split. }
    destruct Hu as [(-> & -> & T)|(-> & -> & T)]; rewrite T in E; cbn [m_factor m_unit] in *; clear Hm T;
    unfold fixed_bases in B; cbn [In] in B;
    repeat (destruct B as [B|B]; [first [discriminate B|injection B as <- <-]|]); try contradiction.
    + inversion M as [E1 E2|s' e' Hin E1 E2|s' e' Hr E1 E2]; subst; try (vm_compute in E; discriminate).
      cbn [In] in Hin. repeat (destruct Hin as [Hin|Hin]; [injection Hin as <- <-; vm_compute in E; try discriminate; vm_compute in F; discriminate|]). contradiction.
    + inversion M as [E1 E2|s' e' Hin E1 E2|s' e' Hr E1 E2]; subst; try (vm_compute in E; discriminate).
      cbn [In] in Hin. repeat (destruct Hin as [Hin|Hin]; [injection Hin as <- <-; vm_compute in E; try discriminate; vm_compute in F; discriminate|]). contradiction.
  - intros c value m Hc Hm. assert (C : c = 0x15 \/ c = 0x16 \/ c = 0x17 \/ c = 0x18 \/ c = 0x19 \/ c = 0x1A \/ c = 0x1B \/ c = 0x1C) by lia.
    repeat (destruct C as [C|C]); subst c; vm_compute in Hm; injection Hm as <-;
    (eexists; split; [reflexivity|split; [apply (near_scales 4 _ (real_of value)); [lia|apply near_of]|vm_compute; discriminate]]).
  - intros c value m Hc Hm. assert (C : c = 0x1D \/ c = 0x1E \/ c = 0x1F \/ c = 0x20 \/ c = 0x21 \/ c = 0x22 \/ c = 0x23 \/ c = 0x24 \/ c = 0x25) by lia.
    repeat (destruct C as [C|C]); subst c; vm_compute in Hm; injection Hm as <-; (eexists; split; reflexivity).
  - intros value m Hm. vm_compute in Hm. injection Hm as <-. eexists. split; [reflexivity|]. refine (scale_row 4 _ (real_of value) _ (mkU 0x2F (1 # 100000) [] []) _ (near_of value) _); [lia|reflexivity].
  - intros value. reflexivity.
Qed.

(** C48, the whole record: a fixed data record whose unit is right is its counter (BCD digits, or signed binary if bit
    7 of the status is set), scaled; bit 6 tells actual from stored values. *)
Theorem C48_record_partial :
  forall status b data v m, is_byte b -> is_byte status ->
  fixed_unit (b mod 64) = Some m -> ~ wrong_fixed (b mod 64) ->
  ((status < 128 /\ exists ds, length ds = 4%nat /\ Forall (fun p => digit (fst p) /\ digit (snd p)) ds /\ data = pack_digits ds /\ v = dec (flat ds)) \/
   (128 <= status /\ bytes data /\ length data = 4%nat /\ v = twos 4 (le data))) ->
  exists x, mbus_parse_fixed_record status b data =
      Ok (Some (mkN (VNum x) (Some (m_unit m)) (if status / 64 mod 2 =? 0 then cstr "Actual value" else cstr "Stored value") (Some (m_quantity m)) (-1) (-1) 0)) /\
    scales (Num (inject_Z v)) (m_factor m) 0 x.
Proof.
  intros status b data v m Hb Hs Hm Hw Hv. unfold mbus_parse_fixed_record.
  assert (Hd : (if Z.land status 0x80 =? 0x00 then mbus_data_bcd_decode data 4
             else let* (_, v) := mbus_data_long_decode data 4 in Ok v) = Ok v).
  { assert (K : forallb (fun c => Bool.eqb (Z.land c 0x80 =? 0) (c <? 128)) (codes 256) = true) by (vm_compute; reflexivity).
    pose proof (eqb_prop _ _ (codes_all 256 _ K status ltac:(unfold is_byte in Hs; lia))) as L. rewrite L. clear K L.
    destruct Hv as [(H & ds & Hl & Hf & -> & ->)|(H & Hy & Hl & ->)].
    - replace (status <? 128) with true by lia. rewrite <- (app_nil_r (pack_digits ds)), <- Hl. apply bcd_decode_digits; [assumption|lia|constructor].
    - replace (status <? 128) with false by lia. change (mbus_data_long_decode data 4) with (mbus_data_long_long_decode data 4). rewrite (long_long_decode_spec data 4 Hy ltac:(lia) ltac:(lia)). rewrite firstn_all2 by lia. reflexivity. }
  rewrite Hd. cbn [bind].
  destruct (C48_normalize_partial b m v Hb Hm Hw) as (x & E & S1). rewrite E. cbn [Z.eqb negb].
  exists x. split; [|assumption]. do 3 f_equal. unfold mbus_data_fixed_function.
  assert (K : forallb (fun c => Bool.eqb (Z.land c 0x40 =? 0x40) (negb (c / 64 mod 2 =? 0))) (codes 256) = true) by (vm_compute; reflexivity).
  pose proof (eqb_prop _ _ (codes_all 256 _ K status ltac:(unfold is_byte in Hs; lia))) as L. rewrite L. destruct (status / 64 mod 2 =? 0); reflexivity.
Qed.
Print Assumptions C48_text_partial.
Print Assumptions C48_text_others.
Print Assumptions C48_normalize_partial.
Print Assumptions C48_normalize_others.
Print Assumptions C48_refuted.
Print Assumptions C48_record_partial.
(** Counter 1234 in units of 10 l (2A), stored value. *)
Example C48_nonvacuous :
  exists x, mbus_parse_fixed_record 0x40 0x2A [0x34; 0x12; 0; 0] =
    Ok (Some (mkN (VNum x) (Some (cstr "m^3")) (cstr "Stored value") (Some (cstr "Volume")) (-1) (-1) 0)) /\ scales (Num 1234) (1 # 100) 0 x.
Proof. eexists. split; vm_compute; [reflexivity|discriminate]. Qed.

(** ** C55 *)
(** The text after the first opening parenthesis, with the text before. *)
Fixpoint paren (t : list Z) : list Z * list Z :=
  match t with
  | [] => ([], [])
  | 32 :: 40 :: r => ([], r)
  | c :: t' => let (a, b) := paren t' in (c :: a, b)
  end.
Definition main_text_b (t : list Z) (f : Q) (unit : list Z) : bool :=
  let (name, r) := paren t in
  any (fun p => match strip (fst p) r with
    | Some r => any (fun b => if zlist_eqb r (fst b ++ cstr ")") then zlist_eqb unit (snd b) && zlist_eqb t (name ++ cstr " (" ++ fst p ++ fst b ++ cstr ")") && Qeq_bool f (ten (snd p)) else false) main_bases
    | None => false end) multiples.
Lemma main_text_b_ok t f unit : main_text_b t f unit = true -> main_text t f unit.
Proof.
  unfold main_text_b. destruct (paren t) as [name r]. intros H. apply any_ok in H. destruct H as ([s e] & M & H). cbn [fst snd] in H. destruct (strip s r) as [r'|]; [|discriminate].
  apply any_ok in H. destruct H as ([b u] & B & H). cbn [fst snd] in H. destruct (zlist_eqb r' _); [|discriminate].
  apply andb_true_iff in H. destruct H as [H H3]. apply andb_true_iff in H. destruct H as [H2 H1].
  apply zlist_eqb_eq in H1. apply zlist_eqb_eq in H2. apply Qeq_bool_eq in H3. subst u. exists name, s, e, b. auto using multiples_ok.
Qed.
(** C55: for every code of the main table that is a decimal multiple of a unit, the text shows the factor and unit with
    which the normaliser scales every value. *)
Theorem C55_consistent :
  forall vif value, is_byte vif -> scaled (vif mod 128) ->
  exists factor unit x q, main_text (mbus_vif_unit_lookup vif) factor unit /\
    mbus_vif_unit_normalize vif value = (0, unit, x, q) /\ scales value factor 0 x.
Proof.
  intros vif value Hb Hs. unfold is_byte, scaled in *.
  assert (K : forallb (fun c => ((0x1F <? c mod 128) && (c mod 128 <? 0x28)) || (0x6B <? c mod 128) ||
    match main_vif (c mod 128) with Some m => main_text_b (mbus_vif_unit_lookup c) (m_factor m) (m_unit m) | None => false end) (codes 256) = true) by (vm_compute; reflexivity).
  pose proof (codes_all 256 _ K vif ltac:(lia)) as L. clear K. cbv beta in L.
  destruct (main_vif (vif mod 128)) as [m|] eqn:Em; [|lia].
  destruct (main_text_b (mbus_vif_unit_lookup vif) (m_factor m) (m_unit m)) eqn:E; [|lia]. apply main_text_b_ok in E.
  destruct (C47_main_table vif m value ltac:(lia) Em) as (x & N & S1). exists (m_factor m), (m_unit m), x, (m_quantity m). auto.
Qed.
(** C55: the text of every record (whatever its value information, and with any text of 128 characters for plain text
    units) fits the 256-byte buffer of the lookup and the 128-byte buffer of the caller. *)
Theorem C55_total :
  forall r, is_byte (r_vif r) -> r_vife r <> [] -> is_byte (nth 0 (r_vife r) 0) ->
  exists t, mbus_vib_unit_lookup r = Ok t /\ (length t < 256)%nat /\
    exists u, mbus_data_record_unit r = Ok u /\ (length u < 128)%nat /\ u = firstn 127 t.
Proof.
  intros r Hv Hn H0. unfold mbus_data_record_unit, mbus_vib_unit_lookup, is_byte in *. destruct (r_vife r) as [|v0 w]; [congruence|]. cbn [rd nth_error bind nth] in *.
  assert (G : forall t, (length t < 256)%nat -> exists t', Ok t = Ok t' /\ (length t' < 256)%nat /\ exists u, (let* t := Ok t in Ok (cut 128 t)) = Ok u /\ (length u < 128)%nat /\ u = firstn 127 t').
  { intros t Ht. exists t. split; [reflexivity|]. split; [assumption|]. cbn [bind]. exists (cut 128 t). split; [reflexivity|]. unfold cut. cbn [Nat.sub].
    split; [rewrite firstn_length; lia|reflexivity]. }
  assert (FB : (length (mbus_vib_unit_lookup_fb v0) < 256)%nat).
  { assert (K : forallb (fun c => (Z.of_nat (length (mbus_vib_unit_lookup_fb c)) <? 256)) (codes 256) = true) by (vm_compute; reflexivity).
    pose proof (codes_all 256 _ K v0 ltac:(lia)) as L. cbv beta in L. lia. }
  assert (FD : (length (mbus_vib_unit_lookup_fd v0) < 256)%nat).
  { assert (K : forallb (fun c => (Z.of_nat (length (mbus_vib_unit_lookup_fd c)) <? 256)) (codes 256) = true) by (vm_compute; reflexivity).
    pose proof (codes_all 256 _ K v0 ltac:(lia)) as L. cbv beta in L. lia. }
  assert (MA : (length (mbus_vif_unit_lookup (r_vif r)) < 256)%nat).
  { assert (K : forallb (fun c => (Z.of_nat (length (mbus_vif_unit_lookup c)) <? 256)) (codes 256) = true) by (vm_compute; reflexivity).
    pose proof (codes_all 256 _ K (r_vif r) ltac:(lia)) as L. cbv beta in L. lia. }
  assert (CU : forall t, (length (cut 256 t) < 256)%nat) by (intros t; unfold cut; rewrite firstn_length; lia).
  assert (MI : (length (cstr "Missing VIF extension") < 256)%nat) by (vm_compute; lia).
  destruct (r_vif r =? 0xFB); [destruct (r_nvife r =? 0)%nat; apply G; assumption|].
  destruct (r_vif r =? 0xFD); [destruct (r_nvife r =? 0)%nat; apply G; assumption|].
  destruct (r_vif r =? 0x7C); [apply G, CU|].
  destruct ((r_vif r =? 0xFC) && (Z.land v0 0x78 =? 0x70)); [apply G, CU|apply G, MA].
Qed.
Print Assumptions C55_consistent.
Print Assumptions C55_total.
(** VIF 13: litres. *)
Example C55_nonvacuous :
  scaled (0x93 mod 128) /\ mbus_vif_unit_lookup 0x93 = cstr "Volume (m m^3)" /\ main_text (cstr "Volume (m m^3)") (1 # 1000) (cstr "m^3").
Proof. split; [left; vm_compute; split; discriminate|]. split; [reflexivity|]. apply main_text_b_ok. vm_compute. reflexivity. Qed.
