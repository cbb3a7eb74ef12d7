(** Records with few markup characters are small enough for the buffers of the document functions. *)
From Coq Require Import String.
From Coq Require Import List.
From Verif Require Import CBase PBase CStr MFrame MCodec MVar MText MXml MUnit MXmlN SWire SFrame SText SCodec SVar SXml SUnit SNorm SXmlN SSmall.
From Verif Require Import PCodec PCodec2 PVar PVar2 PVar3 PText PText2 PText3 PXml PXml2 PXml3 PXml4 PropVar PropText PropXml PropUText PNorm PropNorm PXmlN.
Local Open Scope Z_scope.

Lemma firstn_Forall {A} (P : A -> Prop) k l : Forall P l -> Forall P (firstn k l).
Proof. intros H. rewrite <- (firstn_skipn k l) in H. apply Forall_app in H. apply H. Qed.
Lemma escape_size l : (length (escape_text l) <= length l + 5 * markups l)%nat.
Proof.
  induction l as [|c l IH]; [cbn; lia|]. unfold escape_text, markups in *. cbn [flat_map filter]. rewrite app_length. cbn [length].
  assert (E : (length (escape c) <= if markup c then 6 else 1)%nat).
  { destruct (markup c) eqn:M; unfold markup in M; unfold escape; destruct (is_control c); try (cbn; lia);
      destruct (Z.eqb_spec c 38); try (cbn; lia); destruct (Z.eqb_spec c 60); try (cbn; lia); destruct (Z.eqb_spec c 62); try (cbn; lia); destruct (Z.eqb_spec c 34); cbn; lia. }
  destruct (markup c); cbn [length]; lia.
Qed.
Lemma markups_app a b : markups (a ++ b) = (markups a + markups b)%nat.
Proof. unfold markups. rewrite filter_app, app_length. reflexivity. Qed.
Lemma markups_firstn n l : (markups (firstn n l) <= markups l)%nat.
Proof. rewrite <- (firstn_skipn n l) at 2. rewrite markups_app. lia. Qed.
Lemma c_text_prefix l : exists k, c_text l = firstn k l.
Proof.
  induction l as [|c l [k IH]]; [exists 0%nat; reflexivity|]. cbn [c_text]. destruct (c =? 0); [exists 0%nat; reflexivity|]. exists (S k). cbn [firstn]. rewrite IH. reflexivity.
Qed.
Lemma markups_c_text l : (markups (c_text l) <= markups l)%nat.
Proof. destruct (c_text_prefix l) as [k ->]. apply markups_firstn. Qed.
Lemma markups_zeros n : markups (repeat 0 n) = 0%nat.
Proof. induction n as [|n IH]; [reflexivity|]. cbn [repeat]. change (markups (0 :: repeat 0 n)) with (markups (repeat 0 n)). exact IH. Qed.
Lemma markups_rev l : markups (rev l) = markups l.
Proof. induction l as [|c l IH]; [reflexivity|]. cbn [rev]. rewrite markups_app, IH. change (c :: l) with ([c] ++ l). rewrite markups_app. lia. Qed.
Lemma escape_c_text l k : (length (escape_text (firstn k (c_text l))) <= length (c_text l) + 5 * markups l)%nat.
Proof.
  pose proof (escape_size (firstn k (c_text l))). pose proof (markups_firstn k (c_text l)). pose proof (markups_c_text l). rewrite firstn_length in H. lia.
Qed.
Lemma escape_app a b : escape_text (a ++ b) = escape_text a ++ escape_text b.
Proof. unfold escape_text. apply flat_map_app. Qed.
Lemma escape_firstn k l : (length (escape_text (firstn k l)) <= length (escape_text l))%nat.
Proof. rewrite <- (firstn_skipn k l) at 2. rewrite escape_app, app_length. lia. Qed.

(** ** Units *)
Lemma byte_size n f : forallb (fun b => (length (escape_text (f b)) <=? n)%nat) (map Z.of_nat (seq 0 256)) = true -> forall v, is_byte v -> (length (escape_text (f v)) <= n)%nat.
Proof.
  intros H v Hv. apply Nat.leb_le. rewrite forallb_forall in H. apply H. apply in_map_iff. exists (Z.to_nat v). unfold is_byte in Hv. split; [lia|]. apply in_seq. lia.
Qed.
Lemma fb_size v : is_byte v -> (length (escape_text (mbus_vib_unit_lookup_fb v)) <= 64)%nat.
Proof. apply byte_size. vm_compute. reflexivity. Qed.
Lemma fd_size v : is_byte v -> (length (escape_text (mbus_vib_unit_lookup_fd v)) <= 64)%nat.
Proof. apply byte_size. vm_compute. reflexivity. Qed.
Lemma vif_size v : is_byte v -> (length (escape_text (mbus_vif_unit_lookup v)) <= 64)%nat.
Proof. apply byte_size. vm_compute. reflexivity. Qed.
Lemma prefix_size v : is_byte v -> (length (escape_text (mbus_unit_prefix (Z.land v 0x07 - 6))) <= 6)%nat.
Proof. apply (byte_size 6 (fun v => mbus_unit_prefix (Z.land v 0x07 - 6))). vm_compute. reflexivity. Qed.
Lemma custom_size a k : wf_rec a -> (length (escape_text (firstn k (c_text (r_custom (obj a))))) <= length (a_text a) + 5 * markups (a_text a))%nat.
Proof.
  intros W. assert (L : (length (a_text a) <= 127)%nat) by apply W. eapply Nat.le_trans; [apply escape_c_text|]. cbn [obj r_custom]. unfold pad. rewrite markups_app, markups_zeros.
  destruct (128 - length (a_text a))%nat as [|m] eqn:E; [lia|]. cbn [repeat]. pose proof (c_text_stop (a_text a) (repeat 0 m)). lia.
Qed.
Lemma unit_size a u : wf_rec a -> mbus_data_record_unit (obj a) = Ok u ->
  (length (escape_text u) <= 64)%nat \/ (has_text (a_vif a) = true /\ (length (escape_text u) <= 7 + length (a_text a) + 5 * markups (a_text a))%nat).
Proof.
  intros W. assert (P := obj_parsed a W).
  destruct P as ((B1 & B2 & B3 & B4 & B5 & B6 & B7 & B8) & D & V & E & E' & C & _).
  unfold mbus_data_record_unit, mbus_vib_unit_lookup. rewrite rd_ok by lia. cbn [bind]. assert (Hv := bytes_nth (r_vife (obj a)) 0 E ltac:(lia)).
  set (v0 := nth 0 (r_vife (obj a)) 0) in *.
  assert (X : forall k t, (length (escape_text t) <= k)%nat -> (let* s := Ok t in Ok (cut 128 s)) = Ok u -> (length (escape_text u) <= k)%nat).
  { intros k t Hk Eu. cbn [bind] in Eu. apply ok_inj in Eu. subst u. unfold cut. eapply Nat.le_trans; [apply escape_firstn|exact Hk]. }
  assert (M : forall s, (length (escape_text s) <=? 64)%nat = true -> (length (escape_text s) <= 64)%nat) by (intros s; apply Nat.leb_le).
  destruct (r_vif (obj a) =? 0xFB).
  { left. revert H. destruct (r_nvife (obj a) =? 0)%nat; apply X; [apply M; vm_compute; reflexivity|apply fb_size; assumption]. }
  destruct (r_vif (obj a) =? 0xFD).
  { left. revert H. destruct (r_nvife (obj a) =? 0)%nat; apply X; [apply M; vm_compute; reflexivity|apply fd_size; assumption]. }
  destruct (Z.eqb_spec (r_vif (obj a)) 0x7C) as [V7|_].
  { intros H. right. split; [cbn [obj r_vif] in V7; rewrite V7; reflexivity|]. revert H. apply X. unfold cut. pose proof (custom_size a (256 - 1) W). lia. }
  destruct (_ && _) eqn:G.
  { intros H. right. apply andb_prop in G. destruct G as [G _]. apply Z.eqb_eq in G. split; [cbn [obj r_vif] in G; rewrite G; reflexivity|]. revert H. apply X. unfold cut.
    eapply Nat.le_trans; [apply escape_firstn|]. rewrite !escape_app, !app_length. pose proof (prefix_size v0 Hv). pose proof (custom_size a (length (c_text (r_custom (obj a)))) W) as Q.
    rewrite firstn_all in Q. change (length (escape_text (cstr " "))) with 1%nat. lia. }
  left. revert H. apply X. apply vif_size. assumption.
Qed.

(** ** Values *)
Lemma rec_size a : wf_rec a -> (length (enc_rec a) <= 240)%nat -> has_text (a_vif a) = true -> (length (a_text a) + length (a_value a) <= 237)%nat.
Proof. intros W L H. unfold enc_rec in L. rewrite H in L. cbn [length] in L. repeat (rewrite app_length in L; cbn [length] in L). rewrite rev_length in L. lia. Qed.
Lemma text_value a : wf_rec a -> a_dif a mod 16 = 13 ->
  exists b w, a_value a = b :: w /\ (length w <= 191)%nat /\ is_byte b /\ bytes w /\ nth 0 (r_data (obj a)) 0 = b /\ firstn (r_len (obj a) - 1) (skipn 1 (r_data (obj a))) = w.
Proof.
  intros W K. assert (V : value_fits (a_dif a) (a_value a)) by apply W. unfold value_fits in V. rewrite K in V. cbn [Z.eqb Pos.eqb] in V. destruct V as (b & w & E & Lw).
  assert (Hb : bytes (a_value a)).
  { assert (H : bytes (enc_rec a)) by apply W. unfold enc_rec in H. apply Forall_inv_tail in H. apply bytes_app in H. destruct H as [_ H]. apply Forall_inv_tail in H.
    apply bytes_app in H. destruct H as [_ H]. apply bytes_app in H. apply H. }
  rewrite E in Hb. inversion_clear Hb as [|? ? Hb1 Hb2]. pose proof (lvar_bound b Hb1). exists b, w. split; [exact E|]. split; [lia|]. split; [exact Hb1|]. split; [exact Hb2|].
  cbn [obj r_data r_len]. rewrite E. unfold pad. split; [reflexivity|]. cbn [length app skipn]. rewrite Nat.sub_succ, Nat.sub_0_r. apply firstn_app_exact. reflexivity.
Qed.
Lemma hex_size l : bytes l -> (length (escape_text (hex_text l)) <= 3 * length l)%nat.
Proof. intros H. destruct (hex_text_plain l H) as [A B]. rewrite escape_text_plain by assumption. exact B. Qed.
Lemma value_size a v : wf_rec a -> (a_dif a mod 16 = 13 -> nth 0 (a_value a) 0 <= 0xBF -> (markups (tl (a_value a)) <= 70)%nat) ->
  mbus_data_record_value (obj a) = Ok v ->
  (length (escape_text v) <= 48)%nat \/ (length (escape_text v) + 3 <= 3 * length (a_value a) /\ length (a_value a) <= 192)%nat \/ (length (escape_text v) <= length (a_value a) + 350 /\ length (a_value a) <= 192)%nat.
Proof.
  intros W M. assert (P := obj_parsed a W). rewrite value_ok by assumption. destruct (Z.eq_dec (a_dif a mod 16) 13) as [K|K].
  - destruct (text_value a W K) as (b & w & E & Lw & B1 & B2 & N & F). rewrite E in *. cbn [length tl nth] in *.
    destruct (Z.le_gt_cases b 0xBF) as [D|D].
    + rewrite decode_text by (try assumption; rewrite N; exact D). rewrite F. intros H. apply ok_inj in H. subst v. right. right. specialize (M K D).
      pose proof (escape_c_text (rev w) (length (c_text (rev w)))) as Q. rewrite firstn_all in Q. pose proof (c_text_le_len (rev w)) as R. rewrite rev_length in R. rewrite markups_rev in Q. lia.
    + rewrite decode_binary by (try assumption; rewrite N; exact D). rewrite F. intros H. apply ok_inj in H. subst v. right. left. pose proof (hex_size (rev w) ltac:(apply Forall_rev; exact B2)) as Q.
      rewrite rev_length in Q. lia.
  - destruct (decode_ok (obj a) P) as (t & E & _ & Pl & Sh). rewrite E. intros H. apply ok_inj in H. subst v. change (r_dif (obj a)) with (a_dif a) in *.
    destruct (Z.eq_dec (a_dif a mod 16) 15) as [K2|K2].
    + rewrite decode_block in E by assumption. apply ok_inj in E. subst t. assert (V : value_fits (a_dif a) (a_value a)) by apply W. left.
      unfold value_fits, dif_size in V. rewrite K2 in V. change (length (a_value a) = 8%nat) in V. assert (Hd : bytes (r_data (obj a))) by apply P.
      pose proof (hex_size (rev (firstn (r_len (obj a)) (r_data (obj a)))) ltac:(apply Forall_rev, bytes_firstn; exact Hd)) as Q. rewrite rev_length, firstn_length in Q. cbn [obj r_len] in *. lia.
    + left. rewrite escape_text_plain by auto. auto.
Qed.
Lemma tame_small a : wf_rec a -> (length (enc_rec a) <= 240)%nat -> tame (EData a) -> small_entry (EData a).
Proof.
  intros W L (T1 & T2 & T3 & T4). split; [exact T1|]. split; [exact T2|]. intros u v Hu Hv. pose proof (rec_size a W L) as R.
  pose proof (unit_size a u W Hu) as U. pose proof (value_size a v W T4 Hv) as V. destruct U as [U|[Ht U]]; [lia|]. specialize (R Ht). lia.
Qed.

(** ** Normalised records *)
Lemma rows_size : forallb (fun row => (length (escape_text (u_unit row)) + length (escape_text (u_quantity row)) <=? 64)%nat) vif_table = true.
Proof. vm_compute. reflexivity. Qed.
Lemma norm_unit_size a value u x q : wf_rec a -> mbus_vib_unit_normalize (obj a) value = Ok (Some (u, x, q)) ->
  (length (escape_text u) + length (escape_text q) <= 64)%nat \/ (has_text (a_vif a) = true /\ (length (escape_text u) + length (escape_text q) <= 1 + length (a_text a) + 5 * markups (a_text a))%nat).
Proof.
  intros W. unfold mbus_vib_unit_normalize. destruct (rd _ 0) as [v0|]; [|discriminate]. cbn [bind]. cbv zeta.
  assert (PL : forall code u x q, match mbus_vif_unit_normalize code value with (ret, u, v, q) => if ret =? 0 then Some (u, v, q) else None end = Some (u, x, q) ->
    (length (escape_text u) + length (escape_text q) <= 64)%nat).
  { clear. intros code u x q. unfold mbus_vif_unit_normalize. destruct (find_row _ _) as [row|] eqn:F; [|discriminate]. cbn [Z.eqb]. intros E. injection E as <- _ <-.
    apply find_row_in in F. pose proof (proj1 (forallb_forall _ _) rows_size row F) as G. apply Nat.leb_le. exact G. }
  set (first := if r_vif (obj a) =? 0xFD then _ else _).
  assert (FG : forall u x q, first = Some (u, x, q) -> (length (escape_text u) + length (escape_text q) <= 64)%nat \/ (has_text (a_vif a) = true /\ (length (escape_text u) + length (escape_text q) <= 1 + length (a_text a) + 5 * markups (a_text a))%nat)).
  { clear u x q. intros u x q. unfold first. destruct (_ =? 0xFD). { destruct (r_nvife _ =? 0)%nat; [discriminate|]. intros E. left. apply (PL _ _ _ _ E). }
    destruct (_ =? 0xFB). { destruct (r_nvife _ =? 0)%nat; [discriminate|]. intros E. left. apply (PL _ _ _ _ E). }
    destruct (_ || _) eqn:G; [|intros E; left; apply (PL _ _ _ _ E)]. intros E. injection E as <- _ <-. right.
    split; [cbn [obj r_vif] in G; apply orb_prop in G; destruct G as [G|G]; apply Z.eqb_eq in G; rewrite G; reflexivity|].
    pose proof (custom_size a (length (c_text (r_custom (obj a)))) W) as Q. rewrite firstn_all in Q. match goal with |- (?x + _ <= _)%nat => change x with 1%nat end. cbn [obj r_custom] in *. lia. }
  destruct first as [[[u0 x0] q0]|]; [|discriminate]. pose proof (FG u0 x0 q0 eq_refl) as F.
  destruct (_ && _); intros E; apply ok_inj in E; injection E as <- _ <-; exact F.
Qed.
Lemma norm_value_size a d : wf_rec a -> (a_dif a mod 16 = 13 -> nth 0 (a_value a) 0 <= 0xBF -> (markups (tl (a_value a)) <= 70)%nat) ->
  mbus_variable_value_decode (obj a) = Ok d ->
  match e_str d with
  | None => True
  | Some s => (length (escape_text s) <= 48)%nat \/ (length (escape_text s) + 3 <= 3 * length (a_value a) /\ length (a_value a) <= 192)%nat \/ (length (escape_text s) <= length (a_value a) + 350 /\ length (a_value a) <= 192)%nat
  end.
Proof.
  intros W M. assert (P := obj_parsed a W). rewrite value_unfold by assumption. cbv zeta. change (r_dif (obj a)) with (a_dif a).
  assert (Hb : bytes (r_data (obj a))) by apply P. assert (Hl : length (r_data (obj a)) = 234%nat) by apply P.
  assert (B : (r_len (obj a) <= 234)%nat) by apply P.
  set (G := match e_str d with None => True | Some _ => _ end).
  assert (NUM : forall ret x size, mkDec ret x None size = d -> G) by (intros ret x size <-; exact I).
  assert (INT : forall n, (let* (ret, v) := mbus_data_int_decode (r_data (obj a)) n in Ok (mkDec ret (real_of v) None 0)) = Ok d -> G).
  { intros n. destruct (mbus_data_int_decode _ _) as [[? ?]|]; [|discriminate]. cbn [bind]. intros E. apply ok_inj in E. apply (NUM _ _ _ E). }
  assert (LL : forall n, (let* (ret, v) := mbus_data_long_long_decode (r_data (obj a)) n in Ok (mkDec ret (real_of v) None 0)) = Ok d -> G).
  { intros n. destruct (mbus_data_long_long_decode _ _) as [[? ?]|]; [|discriminate]. cbn [bind]. intros E. apply ok_inj in E. apply (NUM _ _ _ E). }
  assert (BCD : forall n, (let* v := mbus_data_bcd_decode (r_data (obj a)) n in Ok (dec_num (real_of v))) = Ok d -> G).
  { intros n. destruct (mbus_data_bcd_decode _ _) as [?|]; [|discriminate]. cbn [bind]. intros E. apply ok_inj in E. apply (NUM _ _ _ E). }
  assert (PUT : forall m size (s : list Z), (1 <= m <= 40)%nat -> Forall plain s -> dec_text m size (fun b => put_list b 0 (cut m s ++ [0])) = Ok d -> G).
  { intros m size s Hm Hc. unfold dec_text. destruct (put_list _ _ _) as [b|] eqn:Eb; [|discriminate]. cbn [bind]. intros E. apply ok_inj in E. subst G. rewrite <- E. cbn [e_str]. left.
    unfold cut in Eb. rewrite put_list_ok in Eb by (rewrite app_length, firstn_length, repeat_length; cbn [length]; lia). apply ok_inj in Eb. subst b.
    cbn [firstn app]. rewrite <- app_assoc. cbn [app]. rewrite c_text_exact by (apply plain_chars, firstn_Forall; exact Hc).
    rewrite escape_text_plain by (apply firstn_Forall; exact Hc). rewrite firstn_length. lia. }
  assert (DT : forall n, (n <= 8)%nat -> (let* t := mbus_data_tm_decode (r_data (obj a)) n in dec_text 21 (Z.of_nat (length (fmt_datetime t ++ [90]))) (fun b => put_list b 0 (cut 21 (fmt_datetime t ++ [90]) ++ [0]))) = Ok d -> G).
  { intros n Hn. destruct (tm_total (r_data (obj a)) n Hb ltac:(lia)) as (t & -> & Rt & _). cbn [bind]. destruct (datetime_short t (in_range_small t Rt)) as [D1 _]. apply PUT; [lia|]. apply Forall_app. split; [exact D1|]. constructor; [unfold plain; lia|constructor]. }
  pose proof (Z.mod_pos_bound (a_dif a) 16 ltac:(lia)) as R.
  assert (C : In (a_dif a mod 16) [0; 1; 2; 3; 4; 5; 6; 7; 8; 9; 10; 11; 12; 13; 14; 15]) by (cbn [In]; lia).
  cbn [In] in C.
  destruct C as [K|[K|[K|[K|[K|[K|[K|[K|[K|[K|[K|[K|[K|[K|[K|[K|[]]]]]]]]]]]]]]]]]; rewrite <- K; cbn [Z.eqb Pos.eqb].
  - intros E. cbn in E. apply ok_inj in E. subst G. rewrite <- E. left. cbn. lia.
  - apply INT.
  - destruct (vif_date _); [|apply INT]. destruct (tm_total (r_data (obj a)) 2 Hb ltac:(lia)) as (t & -> & Rt & _). cbn [bind].
    destruct (date_short t (in_range_small t Rt)) as [[D1 _] D2]. apply PUT; [lia|assumption].
  - apply INT.
  - destruct (vif_datetime _ _); [apply DT; lia|apply INT].
  - rewrite float_bits_le by lia. cbn [bind]. intros E. apply ok_inj in E. apply (NUM _ _ _ E).
  - destruct (vif_datetime _ _); [apply DT; lia|apply LL].
  - apply LL.
  - intros E. apply ok_inj in E. apply (NUM _ _ _ E).
  - apply BCD.
  - apply BCD.
  - apply BCD.
  - apply BCD.
  - rewrite rd_ok by lia. cbn [bind]. symmetry in K. destruct (text_value a W K) as (b & w & E & Lw & B1 & B2 & N & F).
    assert (Hn : (r_len (obj a) - 1)%nat = length w) by (cbn [obj r_len]; rewrite E; cbn [length]; lia). assert (Hr : r_len (obj a) = S (length w)) by (cbn [obj r_len]; rewrite E; reflexivity).
    rewrite N. rewrite E in M. cbn [nth tl] in M. subst G. rewrite E. cbn [length]. rewrite Hn in F. rewrite Hr. cbn [Nat.eqb]. rewrite Nat.sub_succ, Nat.sub_0_r. destruct (Z.leb_spec b 0xBF) as [D|D].
    + unfold dec_text. rewrite str_decode_spec by (rewrite ?skipn_length, ?repeat_length; lia). cbn [bind]. intros X. apply ok_inj in X. subst d. cbn [e_str].
      rewrite F. right. right. specialize (M K D). rewrite skipn_all2 by (rewrite repeat_length; lia).
      pose proof (escape_c_text (rev w ++ [0]) (length (c_text (rev w ++ [0])))) as Q. rewrite firstn_all in Q. pose proof (c_text_stop (rev w) []) as R2. rewrite rev_length in R2.
      rewrite markups_app, markups_rev in Q. change (markups [0]) with 0%nat in Q. lia.
    + rewrite text_hex by (try (apply bytes_skipn; assumption); rewrite skipn_length; lia). intros X. apply ok_inj in X. subst d. cbn [e_str]. rewrite F. right. left.
      pose proof (hex_size (rev w) ltac:(apply Forall_rev; exact B2)) as Q. rewrite rev_length in Q. lia.
  - apply BCD.
  - rewrite text_hex by (try assumption; lia). intros X. apply ok_inj in X. subst G. subst d. cbn [e_str]. left. assert (V : value_fits (a_dif a) (a_value a)) by apply W.
    unfold value_fits, dif_size in V. rewrite <- K in V. change (length (a_value a) = 8%nat) in V.
    pose proof (hex_size (rev (firstn (r_len (obj a)) (r_data (obj a)))) ltac:(apply Forall_rev, bytes_firstn; exact Hb)) as Q. rewrite rev_length, firstn_length in Q. cbn [obj r_len] in *. lia.
Qed.
Lemma tame_norm a : wf_rec a -> (length (enc_rec a) <= 240)%nat -> tame (EData a) -> small_norm (EData a).
Proof.
  intros W L (T1 & T2 & T3 & T4). split; [exact T1|]. split; [exact T2|]. intros n lost. pose proof (rec_size a W L) as R.
  unfold mbus_parse_variable_record. destruct (address_part a W T1 T2) as (A1 & A2 & A3). rewrite A1, A2, A3. cbn [bind].
  destruct (mbus_variable_value_decode (obj a)) as [d|] eqn:Ed; [|discriminate]. cbn [bind]. change (r_dif (obj a)) with (a_dif a).
  assert (ND : (a_dif a =? 0x0F) || (a_dif a =? 0x1F) = false) by (destruct W as (W1 & W2 & _); lia). rewrite ND.
  destruct (negb _) eqn:Er; [discriminate|]. pose proof (norm_value_size a d W T4 Ed) as V.
  destruct (mbus_vib_unit_normalize (obj a) (e_real d)) as [[[[u x] q]|]|] eqn:Eu; cbn [bind]; try discriminate.
  pose proof (norm_unit_size a _ _ _ _ W Eu) as U. intros E. apply ok_inj in E. injection E as <- _. unfold text_size. cbn [n_unit n_quantity n_value text_of].
  destruct (e_str d) as [s|]; (destruct U as [U|[Ht U]]; [|specialize (R Ht)]); lia.
Qed.

(** ** Replies *)
Lemma telegram_sizes f h its t : var_telegram f h its t -> Forall (fun e => match e with EData a => wf_rec a /\ (length (enc_rec a) <= 240)%nat | EBlock _ _ => True end) (entries its t).
Proof.
  intros ((_ & _ & _ & _ & L) & Lh & W & _). rewrite app_length, Lh in L. change DATA_LEN with 252%nat in L. unfold enc_body in L. rewrite app_length in L.
  assert (L1 : (length (flat_map enc_item its) <= 240)%nat) by lia. clear L. unfold entries. apply Forall_app. split.
  - induction W as [|[|a] its H _ IH]; [constructor|apply IH; cbn [flat_map enc_item app length] in L1; lia|]. cbn [flat_map enc_item entry_item app] in *.
    rewrite app_length in L1. constructor; [split; [exact H|lia]|apply IH; lia].
  - destruct t as [[m b]|]; repeat constructor.
Qed.
Lemma telegram_small f h its t : var_telegram f h its t -> Forall tame (entries its t) -> Forall small_entry (entries its t) /\ Forall small_norm (entries its t).
Proof.
  intros T H. pose proof (telegram_sizes f h its t T) as S1. revert H S1. generalize (entries its t). intros es H S1.
  induction H as [|e es H _ IH]; [split; constructor|]. inversion_clear S1 as [|? ? S2 S3]. destruct (IH S3) as [I1 I2].
  destruct e as [a|m b]; [|split; constructor; try exact I; assumption]. destruct S2 as [S2 S4]. split; constructor; try assumption; [apply tame_small|apply tame_norm]; assumption.
Qed.
