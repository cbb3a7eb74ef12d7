(** Proofs about the error texts: replies. *)
From Coq Require Import String.
From Coq Require Import List.
From Verif Require Import CBase PBase CStr MFrame SWire SFrame PFrame MCodec PCodec MVar SVar PVar PVar3 MText MXml MSecond MErr SErr PErr PErr2 PErr3 PErr4.

Lemma direction_bit c : is_byte c -> (Z.land c 0x40 =? 0) = ((c / 64) mod 2 =? 0).
Proof. intros H. apply eqb_prop. revert c H. apply byte_cases. vm_compute. reflexivity. Qed.
Lemma direction_two c : (c / 64) mod 2 <> 0 -> (c / 64) mod 2 = 1.
Proof. intros H. pose proof (Z.mod_pos_bound (c / 64) 2 ltac:(lia)). lia. Qed.

Lemma says_len e m : says e m -> List.length e = 512%nat.
Proof. intros [[H _] _]. exact H. Qed.

Definition drop_o (x : res (Z * option fdat * list Z)) : res (Z * fdat) :=
  match x with Ok (r, Some fd, _) => Ok (r, fd) | _ => UB end.
Lemma data_drop e f p fd : carries f p -> List.length e = 512%nat ->
  drop_o (mbus_frame_data_parse_e e (Some f) (Some fd)) = mbus_frame_data_parse f fd.
Proof.
  intros Hc He. unfold mbus_frame_data_parse_e, mbus_frame_data_parse.
  destruct (Z.land (control f) 64 =? 0). 2:{ say_any. reflexivity. }
  destruct (ctrl_info f =? 112).
  { destruct (data_size f >? 0); [|reflexivity]. destruct (rd (fdata f) 0); reflexivity. }
  destruct (ctrl_info f =? 115).
  { destruct (data_size f =? 0). { say_any. reflexivity. }
    pose proof (fixed_drop e f (d_fix fd) He) as X. rewrite <- X.
    destruct (mbus_data_fixed_parse_e e f (d_fix fd)) as [[[r x] e']|]; reflexivity. }
  destruct (ctrl_info f =? 114).
  { destruct (data_size f =? 0). { say_any. reflexivity. }
    pose proof (variable_drop e f (d_var fd) p Hc He) as X. rewrite <- X.
    destruct (mbus_data_variable_parse_e e f (d_var fd)) as [[[r x] e']|]; reflexivity. }
  say_any. reflexivity.
Qed.

Lemma variable_names e f p dv r dv' e' : carries f p -> List.length e = 512%nat -> p <> [] ->
  mbus_data_variable_parse_e e f dv = Ok (r, dv', e') ->
  (r = 0 /\ e' = e) \/
  (r = -1 /\ exists m, says e' m /\ ((m = cstr "Variable header too short." /\ (List.length p < 12)%nat) \/
     exists h its l, List.length h = 12%nat /\ p = h ++ flat_map enc_item its ++ l /\ Forall wf_item its /\ ordinary l /\ faulty l m)).
Proof.
  intros Hc He Hp H. pose proof Hc as (HL & HB & Hs & Hf & Hle). unfold DATA_LEN in *.
  unfold mbus_data_variable_parse_e in H. rewrite Hs, Nat2Z.id in H.
  destruct (Nat.ltb_spec (List.length p) 12) as [H12|H12].
  - destruct (say_ok e (cstr "Variable header too short.") He ltac:(nozero)) as (e1 & S1 & S2). rewrite S1 in H. cbn [bind] in H.
    apply ok_inj in H. right. assert (r = -1 /\ e1 = e') as [-> ->] by (split; congruence). eauto 6.
  - destruct (copy_loop 12 (repeat 0 12) 0 (fdata f) 0) as [h|]; cbn [bind] in H; [|discriminate].
    apply (loop_names (fdata f) (List.length p) HB ltac:(lia)) in H; [|exact He|lia].
    destruct H as [H|(-> & its & l & m & E & F & O & R & S1)]; [left; exact H|right]. split; [reflexivity|]. exists m. split; [exact S1|]. right.
    rewrite (carries_rem f p 12 Hc) in E.
    exists (firstn 12 p), its, l. rewrite <- E, firstn_skipn, firstn_length. repeat (split; [assumption || reflexivity || lia|]). exact R.
Qed.

Lemma data_names e f p fd r fd' e' : carries f p -> is_byte (control f) -> is_byte (ctrl_info f) -> List.length e = 512%nat ->
  mbus_frame_data_parse_e e (Some f) (Some fd) = Ok (r, fd', e') ->
  (r = 0 /\ e' = e) \/ (r = -1 /\ exists m, data_fault (control f) (ctrl_info f) p m /\ says e' m).
Proof.
  intros Hc Hk Hi He H. unfold mbus_frame_data_parse_e in H. rewrite (direction_bit _ Hk) in H.
  destruct (Z.eqb_spec ((control f / 64) mod 2) 0) as [HD|HD].
  2:{ destruct (say_ok e (cstr "Wrong direction in frame (master to slave)") He ltac:(nozero)) as (e1 & S1 & S2). rewrite S1 in H. cbn [bind] in H.
      apply ok_inj in H. right. assert (r = -1 /\ e1 = e') as [-> ->] by (split; congruence). split; [reflexivity|].
      eexists. split; [apply DF_direction, direction_two, HD|exact S2]. }
  destruct (Z.eqb_spec (ctrl_info f) 112) as [E70|E70].
  { destruct (data_size f >? 0); [destruct (rd (fdata f) 0); cbn [bind] in H; [|discriminate]|]; apply ok_inj in H; left; split; congruence. }
  assert (HZ : data_size f = Z.of_nat (List.length p)) by apply Hc.
  assert (HE : (data_size f =? 0) = true -> p = []). { rewrite HZ. destruct p; [reflexivity|cbn [List.length]; lia]. }
  assert (HN : (data_size f =? 0) = false -> p <> []). { rewrite HZ. intros X ->. cbn in X. discriminate. }
  destruct (Z.eqb_spec (ctrl_info f) 115) as [E73|E73].
  { destruct (data_size f =? 0) eqn:E0.
    { destruct (say_ok e (cstr "Got zero data_size.") He ltac:(nozero)) as (e1 & S1 & S2). rewrite S1 in H. cbn [bind] in H.
      apply ok_inj in H. right. assert (r = -1 /\ e1 = e') as [-> ->] by (split; congruence). split; [reflexivity|].
      eexists. split; [apply DF_empty; auto|exact S2]. }
    specialize (HN eq_refl). unfold mbus_data_fixed_parse_e in H.
    destruct (Z.eqb_spec (data_size f) 16) as [E16|E16]; cbn [negb] in H.
    - unfold mbus_data_fixed_parse in H. rewrite E16 in H. change (negb (16 =? 16)) with false in H. cbv iota in H.
      destruct Hc as (HL & _). unfold DATA_LEN in HL. rewrite !rd_ok in H by lia. cbn [bind] in H. apply ok_inj in H. left; split; congruence.
    - destruct (say_ok e (cstr "Invalid length for fixed data.") He ltac:(nozero)) as (e1 & S1 & S2). rewrite S1 in H. cbn [bind] in H.
      apply ok_inj in H. right. assert (r = -1 /\ e1 = e') as [-> ->] by (split; congruence). split; [reflexivity|].
      eexists. split; [apply DF_fixed; auto; lia|exact S2]. }
  destruct (Z.eqb_spec (ctrl_info f) 114) as [E72|E72].
  { destruct (data_size f =? 0) eqn:E0.
    { destruct (say_ok e (cstr "Got zero data_size.") He ltac:(nozero)) as (e1 & S1 & S2). rewrite S1 in H. cbn [bind] in H.
      apply ok_inj in H. right. assert (r = -1 /\ e1 = e') as [-> ->] by (split; congruence). split; [reflexivity|].
      eexists. split; [apply DF_empty; auto|exact S2]. }
    specialize (HN eq_refl).
    destruct (mbus_data_variable_parse_e e f (d_var fd)) as [[[r1 dv'] e1]|] eqn:EV; cbn [bind] in H; [|discriminate].
    apply ok_inj in H. assert (r1 = r /\ e1 = e') as [-> ->] by (split; congruence).
    apply (variable_names e f p) in EV; try assumption.
    destruct EV as [EV|(-> & m & S1 & [[-> H12]|(h & its & l & A1 & A2 & A3 & A4 & [A5|[A5 A6]])])]; [left; exact EV| | |];
      right; (split; [reflexivity|]).
    - eexists. split; [apply DF_header; auto|exact S1].
    - exists m. split; [eapply DF_record; eauto|exact S1].
    - exists m. split; [eapply DF_cut; eauto|exact S1]. }
  assert (N0 : ~ In 0 (cstr "Unknown control information 0x" ++ hex_pair (ctrl_info f))).
  { apply app_nozero; [nozero|apply pair_nozero; exact Hi]. }
  rewrite p2x_pair in H by exact Hi. destruct (say_ok e _ He N0) as (e1 & S1 & S2). rewrite S1 in H. cbn [bind] in H.
  apply ok_inj in H. right. assert (r = -1 /\ e1 = e') as [-> ->] by (split; congruence). split; [reflexivity|].
  eexists. split; [apply DF_ci; [exact HD|cbn [In]; lia]|exact S2].
Qed.

Lemma data_says e f p fd m : carries f p -> is_byte (control f) -> is_byte (ctrl_info f) -> List.length e = 512%nat -> (List.length p <= 250)%nat ->
  data_fault (control f) (ctrl_info f) p m -> ~ ends_cut p ->
  exists fd' e', mbus_frame_data_parse_e e (Some f) (Some fd) = Ok (-1, Some fd', e') /\ says e' m.
Proof.
  intros Hc Hk Hi He H250 HF HC. unfold mbus_frame_data_parse_e. rewrite (direction_bit _ Hk).
  pose proof Hc as (HL & HB & HZ & Hf & Hle). unfold DATA_LEN in *.
  destruct HF as [D|D C|D C P|D C P L|D C P L|h its l m D C L E W O R|h its l m D C L E W O R X]; rewrite D.
  - cbn [Z.eqb Pos.eqb]. saying S1. eauto.
  - cbn [Z.eqb]. cbn [In] in C. destruct (Z.eqb_spec (ctrl_info f) 112); [lia|]. destruct (Z.eqb_spec (ctrl_info f) 115); [lia|].
    destruct (Z.eqb_spec (ctrl_info f) 114); [lia|]. rewrite p2x_pair by exact Hi. saying S1. eauto.
  - cbn [Z.eqb]. assert (data_size f = 0) as -> by (rewrite HZ, P; reflexivity).
    destruct C as [-> | ->]; cbn [Z.eqb Pos.eqb]; saying S1; eauto.
  - rewrite C. cbn [Z.eqb Pos.eqb]. destruct (Z.eqb_spec (data_size f) 0) as [E0|_]. { destruct p; [contradiction|cbn [List.length] in HZ; lia]. }
    unfold mbus_data_fixed_parse_e. destruct (Z.eqb_spec (data_size f) 16) as [E|_]; [lia|]. cbn [negb]. saying S1. eauto.
  - rewrite C. cbn [Z.eqb Pos.eqb]. destruct (Z.eqb_spec (data_size f) 0) as [E0|_]. { destruct p; [contradiction|cbn [List.length] in HZ; lia]. }
    unfold mbus_data_variable_parse_e. destruct (Nat.ltb_spec (Z.to_nat (data_size f)) 12); [|lia]. saying S1. eauto.
  - rewrite C. cbn [Z.eqb Pos.eqb].
    assert (LP : (12 <= List.length p)%nat) by (rewrite E, app_length; lia).
    destruct (Z.eqb_spec (data_size f) 0) as [E0|_]; [lia|].
    unfold mbus_data_variable_parse_e. destruct (Nat.ltb_spec (Z.to_nat (data_size f)) 12); [lia|].
    rewrite (copy_pad 12 12) by lia. cbn [bind]. rewrite HZ, Nat2Z.id.
    destruct (loop_says (fdata f) (List.length p) HB ltac:(lia) ltac:(lia) its (S (List.length p)) e 12%nat
      (mkVar (pad 12 (firstn 12 (skipn 0 (fdata f)))) [] 0 0) l m He) as (dv' & e' & E1 & E2); try assumption; try lia.
    { rewrite (carries_rem f p 12 Hc), E. apply skipn_app_exact. lia. }
    rewrite E1. cbn [bind]. eauto.
  - exfalso. apply HC. exists h, its, l. auto.
Qed.
