(** Theorems: the plain and the normalised document of a reply agree (C95). *)
From Coq Require Import String.
From Coq Require Import List.
From Coq Require Import Qabs Qpower.
From Verif Require Import CBase PBase CStr MFrame MCodec MVar MText MXml MUnit MXmlN SWire SFrame SText SCodec SVar SXml SUnit SNorm SXmlN SAgree.
From Verif Require Import PText PText2 PText3 PXml2 PXml3 PXml4 PropVar PropXml PropText PropUnit PropUText PNorm PropNorm PXmlN PropXmlN PDoc PAgree.
Local Open Scope Z_scope.

Lemma field_hit n t r : field n (leaf n t :: r) = Some t.
Proof. cbn [field leaf]. destruct (list_eq_dec Z.eq_dec (cstr n) (cstr n)); [reflexivity|contradiction]. Qed.
Lemma field_miss n m t r : cstr m <> cstr n -> field n (leaf m t :: r) = field n r.
Proof. intros H. cbn [field leaf]. destruct (list_eq_dec Z.eq_dec (cstr m) (cstr n)); [contradiction|reflexivity]. Qed.
Ltac fields := cbn [app]; rewrite ?field_hit; repeat (rewrite field_miss by (vm_compute; discriminate); rewrite ?field_hit); cbn [field].

(** ** Elements of a record *)
Definition plus (st : option (list Z)) : list node := match st with Some s => [leaf "Timestamp" s] | None => [] end.
Lemma parsed_record a n lost : wf_rec a -> (List.length (a_difes a) <= 8)%nat -> storage_number (a_dif a) (a_difes a) < 2 ^ 31 ->
  mbus_parse_variable_record (obj a) = Ok (Some n, lost) ->
  n_function n = function_name (a_dif a) /\ n_storage n = storage_number (a_dif a) (a_difes a) /\
  n_tariff n = (match a_difes a with [] => -1 | ds => tariff ds end) /\ n_device n = (match a_difes a with [] => -1 | ds => subunit ds end).
Proof.
  intros W L S. unfold mbus_parse_variable_record. destruct (address_part a W L S) as (A1 & A2 & A3). rewrite A1, A2, A3. cbn [bind].
  destruct (mbus_variable_value_decode (obj a)) as [d|]; [|discriminate]. cbn [bind]. change (r_dif (obj a)) with (a_dif a).
  assert (ND : (a_dif a =? 0x0F) || (a_dif a =? 0x1F) = false) by (destruct W as (W1 & W2 & _); lia). rewrite ND.
  destruct (negb (e_ret d =? 0)); [discriminate|]. destruct (mbus_vib_unit_normalize (obj a) (e_real d)) as [[[[u x] q]|]|]; cbn [bind]; try discriminate.
  intros E. apply ok_inj in E. destruct (function_spec (obj a)) as [F _]; [apply (obj_bytes a W)|].
  change (r_dif (obj a)) with (a_dif a) in F. rewrite F in E. clear - E. revert E. generalize (match e_str d with Some s => VStr s (e_size d) | None => VNum x end).
  intros v E. injection E as <- _. auto.
Qed.
Lemma shares_nodes e st p q : wf_entry e -> small_entry e -> small_norm e -> entry_nodes e p -> norm_entry e q ->
  (q = [] /\ ~ meaningful e) \/ shares e (p ++ plus st) q.
Proof.
  intros W Sm Sn P N. pose proof N as (o & lost & E & Q). destruct o as [n|]; [right|].
  - destruct e as [a|more b]; cbn [wf_entry small_entry entry_nodes shares] in *.
    + destruct Sm as (L & S & _). destruct (parsed_record a n lost W L S E) as (D1 & D2 & D3 & D4).
      destruct P as (u & v & ts & td & P1 & P2 & P3 & P4 & ->). destruct Q as (ts' & td' & v' & Q1 & Q2 & Q3 & ->).
      rewrite D1. rewrite D2 in Q1. rewrite (decimal_unique _ _ _ Q1 P3). rewrite D3, D4 in Q3.
      destruct (a_difes a) as [|d ds] eqn:Ed.
      * change (-1 <? 0) with true in Q3. cbv iota in Q3. subst td td'. cbn [app]. destruct st; cbn [plus]; fields; repeat split; discriminate.
      * pose proof (tariff_range (d :: ds) ltac:(lia)) as TR. destruct (Z.ltb_spec (tariff (d :: ds)) 0) as [|_]; [lia|].
        destruct P4 as (t1 & d1 & T1 & V1 & ->), Q3 as (t2 & d2 & T2 & V2 & ->). rewrite (decimal_unique _ _ _ T2 T1), (decimal_unique _ _ _ V2 V1).
        fields. repeat split; discriminate.
    + destruct W as [Lb Hb]. destruct (C60_block more b Lb Hb) as (n' & size & E' & V & F & U & Qn & Sx & T & D). rewrite E in E'. apply ok_inj in E'. injection E' as <- _.
      subst p. destruct Q as (ts' & td' & v' & Q1 & Q2 & Q3 & ->). rewrite T in Q3. change (-1 <? 0) with true in Q3. cbv iota in Q3. subst td'.
      rewrite V in Q2. cbn [shows_value] in Q2. subst v'. rewrite F. rewrite (plain_shown (hex_text (rev b))) by (apply hex_text_plain, Forall_rev; assumption).
      destruct st; cbn [plus]; fields; repeat split; discriminate.
  - left. split; [exact Q|]. intros M. subst q. pose proof (nodes_meaning e None lost [] W Sn M E eq_refl) as X. destruct e as [a|more b]; cbn [meaning_entry] in X.
    + destruct X as (? & ? & ? & ? & ? & _ & _ & _ & _ & _ & X). discriminate X.
    + destruct X as (? & _ & X). discriminate X.
Qed.
Lemma records_agree stamp (R : entry -> list node -> list node -> Prop) (C : entry -> Prop) :
  (forall e st p q, C e -> entry_nodes e p -> norm_entry e q -> R e (p ++ plus st) q) ->
  forall es i ps qs, Forall C es -> entries_nodes stamp es i (-1) ps -> norm_entries norm_entry es i qs -> records R es ps qs.
Proof.
  intros H. induction es as [|e es IH]; intros i ps qs F P Q; cbn [entries_nodes norm_entries] in *; [subst; exact I|].
  destruct P as (n & ns & out & -> & P1 & (ti & attrs & T & A & ->) & P2), Q as (n' & ns' & out' & -> & Q1 & (ti' & attrs' & T' & A' & ->) & Q2).
  inversion F; subst. change (-1 <? 0) with true in A, A'. cbv iota in A, A'. subst attrs attrs'. rewrite (decimal_unique _ _ _ T' T). cbn [records].
  split; [reflexivity|]. split; [reflexivity|]. split; [reflexivity|]. split; [|eapply IH; eassumption].
  rewrite app_nil_r. apply (H e (stamp i)); assumption.
Qed.
Lemma documents_agree stamp (R : entry -> list node -> list node -> Prop) h es p q :
  (forall e st p q, wf_entry e -> In e es -> entry_nodes e p -> norm_entry e q -> R e (p ++ plus st) q) -> Forall wf_entry es ->
  document stamp h [es] p -> norm_document norm_entry h es q -> agree R es p q.
Proof.
  intros H F (b & s & r & E & Rn & S & o1 & o2 & -> & T & ->) (b' & s' & r' & E' & Rn' & S' & T'). rewrite <- (slave_unique _ _ _ S S') in Rn'.
  rewrite app_nil_r in Rn. exists b, b', s, o1, r'. split; [exact E|]. split; [exact E'|]. split; [exact Rn|]. split; [exact Rn'|].
  apply (records_agree stamp R (fun e => wf_entry e /\ In e es)) with (i := 0); try assumption; [intros ? ? ? ? []; auto|].
  rewrite Forall_forall in *. auto.
Qed.

(** C95: the plain and the normalised document of a reply have the same slave information and the same records, with
    the same numbers, functions, storage numbers, tariffs and devices, and the same manufacturer specific block. A record
    without a meaning may be empty in the normalised document. *)
Theorem C95_same_partial :
  forall stamp, (forall i, stamp_ok (stamp i)) ->
  forall f h its t fd fd', var_telegram f h its t -> Forall small_entry (entries its t) -> Forall small_norm (entries its t) ->
  mbus_frame_data_parse f fd = Ok (0, fd') ->
  exists p q lost, mbus_frame_data_xml stamp fd' = Ok (Some p) /\ mbus_frame_data_xml_normalized fd' = Ok (Some q, lost) /\
    agree (fun e cp cq => (cq = [] /\ ~ meaningful e) \/ shares e cp cq) (entries its t) p q.
Proof.
  intros stamp Hs f h its t fd fd' T Sm Sn E. destruct (C29_document_partial stamp Hs f h its t fd fd' T Sm E) as (p & E1 & D1).
  destruct (C61_document_partial f h its t fd fd' T Sn E) as (q & lost & E2 & D2 & _). exists p, q, lost. split; [exact E1|]. split; [exact E2|].
  apply (documents_agree stamp _ h); try assumption; [|apply entries_wf; apply T].
  rewrite Forall_forall in Sm, Sn. intros e st cp cq W I P Q. apply shares_nodes; auto.
Qed.
Print Assumptions C95_same_partial.

(** ** Values *)
Lemma millionths_shown t n : read_millionths t = Some n -> shown t = t.
Proof.
  intros H. apply shown_plain. unfold read_millionths in H.
  set (body := match t with 45 :: u => u | _ => t end) in *.
  assert (B : Forall (fun c => 32 <= c /\ c <> 127) body).
  { destruct (read_nat 10 (firstn (List.length body - 7) body)) as [a|] eqn:E1; [|discriminate].
    destruct (skipn (List.length body - 7) body) as [|c f] eqn:E2; [discriminate|].
    rewrite <- (firstn_skipn (List.length body - 7) body). rewrite E2.
    assert (X : Forall (fun c => 32 <= c /\ c <> 127) (firstn (List.length body - 7) body)).
    { unfold read_nat in E1. destruct (firstn (List.length body - 7) body); [discriminate|]. apply read_digits_chars in E1. revert E1. apply Forall_impl. lia. }
    assert (C : c = 46 /\ exists b, read_nat 10 f = Some b).
    { clear - H. destruct c as [|p|p]; try discriminate. do 6 (destruct p as [p|p|]; try discriminate H). split; [reflexivity|]. destruct (read_nat 10 f); [eauto|discriminate]. }
    destruct C as (-> & b & R). apply Forall_app. split; [exact X|]. constructor; [lia|]. unfold read_nat in R. destruct f; [discriminate|].
    apply read_digits_chars in R. revert R. apply Forall_impl. lia. }
  destruct t as [|c t]; [constructor|]. subst body.
  destruct (Z.eq_dec c 45) as [->|N]; [constructor; [lia|exact B]|].
  assert (Y : match c :: t with 45 :: u => u | _ => c :: t end = c :: t).
  { clear - N. destruct c as [|p|p]; try reflexivity. do 6 (destruct p as [p|p|]; try reflexivity). lia. }
  rewrite Y in B. exact B.
Qed.
Lemma nearest_close m e n q : nearest_millionth m e n -> (q == inject_Z m * Qpower 2 e)%Q -> (Qabs ((n # 1000000) - q) <= 1 # 2000000)%Q.
Proof.
  intros H E. rewrite E. clear E q. unfold nearest_millionth in H. apply Qabs_Qle_condition.
  destruct (Z.le_gt_cases 0 e) as [P|P].
  - rewrite Z.max_l in H by lia. rewrite (Z.max_r 0 e) in H by lia. change (2 ^ 0) with 1 in H.
    assert (X : (Qpower 2 e == inject_Z (2 ^ e))%Q) by (change 2%Q with (inject_Z 2); rewrite Zpower_Qpower by lia; reflexivity).
    rewrite X. generalize dependent (2 ^ e). intros k H. unfold Qle, Qminus, Qplus, Qopp, Qmult, inject_Z. cbn [Qnum Qden]. lia.
  - rewrite Z.max_r in H by lia. rewrite (Z.max_l 0 e) in H by lia. change (2 ^ 0) with 1 in H.
    assert (K : 0 < 2 ^ (- e)) by (apply Z.pow_pos_nonneg; lia).
    assert (X : (Qpower 2 e == 1 # Z.to_pos (2 ^ (- e)))%Q).
    { replace e with (- - e) at 1 by lia. rewrite Qpower_opp. change 2%Q with (inject_Z 2). rewrite <- Zpower_Qpower by lia. unfold Qinv, inject_Z. cbn [Qnum Qden].
      destruct (2 ^ - e) eqn:Y; try lia. reflexivity. }
    rewrite X. generalize dependent (2 ^ - e). intros k H K _. destruct k as [|k|]; try lia. cbn [Z.to_pos].
    unfold Qle, Qminus, Qplus, Qopp, Qmult, inject_Z. cbn [Qnum Qden]. rewrite ?Pos2Z.inj_mul. lia.
Qed.
Lemma value_of_decode a v : wf_rec a -> mbus_data_record_decode (obj a) = Ok v -> mbus_data_record_value (obj a) = Ok v.
Proof.
  intros W E. unfold mbus_data_record_value. rewrite E. cbn [bind]. f_equal.
  destruct C54_fits_buffer as [F _]. destruct (F a W) as (t' & E' & _ & L). rewrite E in E'. apply ok_inj in E'. subst t'. apply cut_short. lia.
Qed.
Definition timed (a : arec) : bool := vif_datetime (a_vif a) (nth 0 (a_vifes a) 0) && ((a_dif a mod 16 =? 4) || (a_dif a mod 16 =? 6)).
Lemma value_told a c : wf_rec a -> means a c -> ~ bcd_error (EData a) ->
  exists v, mbus_data_record_decode (obj a) = Ok v /\
    match c with Number x => tells x (shown v) | Text s => s = if timed a then v ++ [90] else v end.
Proof.
  intros W M NB. assert (NE : In (a_dif a mod 16) [9; 10; 11; 12; 14] -> error_state (a_dif a) = false).
  { intros I. destruct (error_state (a_dif a)) eqn:X; [|reflexivity]. destruct NB. split; assumption. }
  assert (NT : a_dif a mod 16 <> 4 -> a_dif a mod 16 <> 6 -> timed a = false) by (intros; unfold timed; lia).
  destruct M as [K|I|ds K V D|ds lo K V D L|x K X|day month year t K F V H1 H2 H3 T|minute hour day month year hy su r0 t K F V H1 H2 H3 H4 H5 H6 H7 H8 T
    |sec minute hour day month year dst lp r wd b5 t K F V H1 H2 H3 H4 H5 H6 H7 H8 H9 H10 T|b w K V B C|b w K V B|K].
  - exists []. split; [|rewrite NT by lia; reflexivity]. rewrite decode_unfold by (apply obj_parsed; assumption). cbv zeta. change (r_dif (obj a)) with (a_dif a). rewrite K. reflexivity.
  - destruct (C54_integer a W I) as (v & E & D). exists v. split; [exact E|]. rewrite (decimal_shown _ _ D). left. eexists. split; [exact D|reflexivity].
  - destruct (C54_bcd a ds W K (NE K) V D) as (v & E & T). exists v. split; [exact E|]. rewrite (decimal_shown _ _ T). left. eexists. split; [exact T|reflexivity].
  - destruct (C54_bcd_negative a ds lo W K (NE K) V D L) as (v & E & T). exists v. split; [exact E|]. rewrite (decimal_shown _ _ T). left. eexists. split; [exact T|reflexivity].
  - destruct (C54_real a W K) as (v & E & T). exists v. split; [exact E|]. destruct (ieee_value (le (a_value a))) as [m e|s|], x as [q|s' nan]; cbn [ieee_number] in X; try contradiction.
    + destruct T as (n & R & N). rewrite (millionths_shown _ _ R). right. exists n. split; [exact R|]. eapply nearest_close; eassumption.
    + destruct X as [-> ->]. destruct s; rewrite T; reflexivity.
    + rewrite X. cbn [tells]. destruct T as [-> | ->]; [left|right]; reflexivity.
  - destruct (C54_date a day month year W K F V H1 H2 H3) as (v & E & T'). exists v. split; [exact E|]. rewrite NT by lia. eapply iso_date_unique; eassumption.
  - destruct (C54_datetime_f a minute hour day month year hy su r0 W K F V H1 H2 H3 H4 H5 H6 H7 H8) as (v & E & T'). exists v. split; [exact E|].
    unfold timed. rewrite F, K. cbn [Z.eqb Pos.eqb orb andb]. f_equal. eapply iso_datetime_unique; eassumption.
  - destruct (C54_datetime_i a sec minute hour day month year dst lp r wd b5 W K F V H1 H2 H3 H4 H5 H6 H7 H8 H9 H10) as (v & E & T'). exists v. split; [exact E|].
    unfold timed. rewrite F, K. cbn [Z.eqb Pos.eqb orb andb]. f_equal. eapply iso_datetime_unique; eassumption.
  - destruct (C54_variable_length a b w W K V) as [E _]. exists (rev w). split; [auto|]. rewrite NT by lia. reflexivity.
  - destruct (C54_variable_length a b w W K V) as [_ E]. exists (hex_text (rev w)). split; [auto|]. rewrite NT by lia. reflexivity.
  - exists (hex_text (rev (a_value a))). split; [|rewrite NT by lia; reflexivity]. rewrite decode_block by (try apply obj_parsed; assumption).
    cbn [obj r_len r_data]. unfold pad. rewrite firstn_app_exact by reflexivity. reflexivity.
Qed.
Lemma shown_time a v : shown (if timed a then v ++ [90] else v) = if timed a then shown v ++ [90] else shown v.
Proof. destruct (timed a); [|reflexivity]. unfold shown. rewrite map_app. reflexivity. Qed.
Lemma converted_nodes e st p q : wf_entry e -> small_norm e -> meaningful e -> ~ bcd_error e -> entry_nodes e p -> norm_entry e q -> converted e (p ++ plus st) q.
Proof.
  destruct e as [a|more b]; [|intros; exact I]. cbn [wf_entry small_norm meaningful converted entry_nodes].
  intros W (S1 & S2 & _) (m & c & Mc & U & NW & C) NB (u & v & ts & td & P1 & P2 & P3 & P4 & ->) (o & lost & E & Q).
  destruct (C60_record_partial a m c W Mc U NW C S1 S2) as (n & E' & D & V). rewrite E in E'. apply ok_inj in E'. injection E' as -> _.
  destruct D as (D1 & D2 & D3 & D4 & D5 & D6). destruct Q as (ts' & td' & w & Q1 & Q2 & Q3 & ->).
  destruct (value_told a c W Mc NB) as (v' & Ev & T). apply value_of_decode in Ev; [|exact W]. rewrite P2 in Ev. apply ok_inj in Ev. subst v'.
  exists m, (shown v), w. split; [exact U|]. rewrite D1, D2. cbn [text_of].
  assert (TD : td = [] \/ exists t d, td = [leaf "Tariff" t; leaf "Device" d]) by (destruct (a_difes a); [auto|]; destruct P4 as (t & d & _ & _ & ->); right; eauto).
  assert (F : field "Value" (([leaf "Function" (function_name (a_dif a)); leaf "StorageNumber" ts] ++ td ++ [leaf "Unit" (shown u); leaf "Value" (shown v)]) ++ plus st) = Some (shown v)).
  { destruct TD as [-> | (t & d & ->)]; cbn [app]; fields; reflexivity. }
  assert (G : td' = [] \/ exists t d, td' = [leaf "Tariff" t; leaf "Device" d]).
  { destruct (n_tariff n <? 0); [auto|]. destruct Q3 as (t & d & _ & _ & ->). right. eauto. }
  split; [exact F|]. split; [destruct G as [-> | (t & d & ->)]; fields; reflexivity|]. split; [destruct G as [-> | (t & d & ->)]; fields; reflexivity|].
  split; [destruct G as [-> | (t & d & ->)]; fields; reflexivity|].
  destruct c as [x|s].
  - left. destruct V as (y & V1 & V2). rewrite V1 in Q2. exists x, y. split; [exact T|]. split; [exact V2|exact Q2].
  - right. destruct V as (size & V1 & _). rewrite V1 in Q2. cbn [shows_value] in Q2. rewrite Q2, T. fold (timed a). apply shown_time.
Qed.

(** C95: ... and for records with a meaning, the normalised document has the same values, converted to the base unit of the
    quantity. Excluded are BCD values in error state, which only the plain document marks. *)
Theorem C95_converted_partial :
  forall stamp, (forall i, stamp_ok (stamp i)) ->
  forall f h its t fd fd', var_telegram f h its t -> Forall small_entry (entries its t) -> Forall small_norm (entries its t) ->
  Forall meaningful (entries its t) -> Forall (fun e => ~ bcd_error e) (entries its t) ->
  mbus_frame_data_parse f fd = Ok (0, fd') ->
  exists p q, mbus_frame_data_xml stamp fd' = Ok (Some p) /\ mbus_frame_data_xml_normalized fd' = Ok (Some q, 0%nat) /\
    agree (fun e cp cq => shares e cp cq /\ converted e cp cq) (entries its t) p q.
Proof.
  intros stamp Hs f h its t fd fd' T Sm Sn M B E. destruct (C29_document_partial stamp Hs f h its t fd fd' T Sm E) as (p & E1 & D1).
  destruct (C61_document_partial f h its t fd fd' T Sn E) as (q & lost & E2 & D2 & _).
  destruct (C61_meaning_partial f h its t fd fd' T Sn M E) as (q' & E2' & _). rewrite E2 in E2'. apply ok_inj in E2'. assert (lost = 0%nat) by congruence. subst lost.
  exists p, q. split; [exact E1|]. split; [exact E2|].
  apply (documents_agree stamp _ h); try assumption; [|apply entries_wf; apply T].
  rewrite Forall_forall in *. intros e st cp cq W I P Q. split; [|apply converted_nodes; auto].
  destruct (shares_nodes e st cp cq W (Sm e I) (Sn e I) P Q) as [[_ X]|X]; [destruct (X (M e I))|exact X].
Qed.
Print Assumptions C95_converted_partial.

(** The exclusion of error states: there the plain document shows the digits as sent, the normalised one a number made
    of them (here -0.011 m^3 for the digits F00000AB in litres). *)
Theorem C95_error_state_needs_rule :
  exists a n, wf_rec a /\ bcd_error (EData a) /\ mbus_data_record_value (obj a) = Ok (cstr "F00000AB") /\
    mbus_parse_variable_record (obj a) = Ok (Some n, false) /\ exists x, n_value n = VNum (Num x) /\ (Qabs (x + (11 # 1000)) <= 1 # 1000000)%Q.
Proof.
  exists (mkA 0x3C [] 0x13 [] [] [0xAB; 0; 0; 0xF0]). eexists. split; [|split; [|split; [|split]]].
  - a_record. cbn. repeat split.
  - split; [cbn; auto|reflexivity].
  - vm_compute. reflexivity.
  - vm_compute. reflexivity.
  - eexists. split; [vm_compute; reflexivity|]. vm_compute. discriminate.
Qed.

(** A telegram with a volume and a manufacturer specific block meets the conditions; both documents and what they agree
    on. *)
Example C95_nonvacuous :
  let es := entries small_its (Some (true, [1; 2])) in
  Forall small_entry es /\ Forall small_norm es /\ Forall meaningful es /\ Forall (fun e => ~ bcd_error e) es /\
  exists p q, shares (EData (mkA 0x01 [] 0x13 [] [] [5])) p q /\ field "Value" p = Some (cstr "5") /\ field "Value" q = Some (cstr "0.005000") /\
    entry_nodes (EData (mkA 0x01 [] 0x13 [] [] [5])) p.
Proof.
  cbv zeta. destruct C61_nonvacuous as (A & B & _). split; [|split; [exact A|split; [exact B|split]]].
  - apply Forall_cons; [|apply Forall_cons; [exact I|apply Forall_nil]]. cbn [small_entry a_difes a_dif]. split; [cbn; lia|]. split; [vm_compute; reflexivity|].
    intros u v E1 E2. vm_compute in E1, E2. apply ok_inj in E1. apply ok_inj in E2. subst u v. vm_compute. lia.
  - apply Forall_cons; [|apply Forall_cons; [intros []|apply Forall_nil]]. intros [X _]. cbn in X. lia.
  - exists [leaf "Function" (function_name 1); leaf "StorageNumber" (cstr "0"); leaf "Unit" (cstr "Volume (m m^3)"); leaf "Value" (cstr "5")].
    exists [leaf "Function" (function_name 1); leaf "StorageNumber" (cstr "0"); leaf "Unit" (cstr "m^3"); leaf "Quantity" (cstr "Volume"); leaf "Value" (cstr "0.005000")].
    split; [repeat split; try discriminate|]. split; [reflexivity|]. split; [reflexivity|].
    eexists _, _, _, []. split; [vm_compute; reflexivity|]. split; [vm_compute; reflexivity|]. split; [apply (decimal_fmt 0)|]. split; reflexivity.
Qed.
