(** Property C47: the codes the standard leaves unassigned. *)
From Coq Require Import String.
From Coq Require Import List.
From Coq Require Import Qabs Qpower.
From Verif Require Import CBase PBase CStr MFrame MCodec MVar MText MUnit SText SCodec SVar SUnit PCodec PCodec2 PVar3 PText PDouble PropUnit.

Definition reserved_row (row : option urow) : bool :=
  match row with Some r => if zlist_eqb (u_unit r) (cstr "Reserved") then (if zlist_eqb (u_quantity r) (cstr "Reserved") then Qeq_bool (u_exponent r) 1 else false) else false | None => false end.
Lemma reserved_row_spec row : reserved_row row = true -> exists r, row = Some r /\ u_unit r = cstr "Reserved" /\ u_quantity r = cstr "Reserved" /\ (u_exponent r == 1)%Q.
Proof.
  unfold reserved_row. destruct row as [r|]; [|discriminate]. destruct (zlist_eqb (u_unit r) _) eqn:E1; [|discriminate]. destruct (zlist_eqb (u_quantity r) _) eqn:E2; [|discriminate].
  intros H. exists r. split; [reflexivity|]. split; [apply zlist_eqb_eq; exact E1|]. split; [apply zlist_eqb_eq; exact E2|]. apply Qeq_bool_eq. exact H.
Qed.
Definition rest_reserved (spec : Z -> option meaning) (base : Z) : bool :=
  forallb (fun c => match spec c with Some _ => true | None => reserved_row (find_row vif_table (base + c)) end) (codes 128).
Lemma fd_rest : rest_reserved fd_vif 0x100 = true. Proof. vm_compute. reflexivity. Qed.
Lemma fb_rest : rest_reserved fb_vif 0x200 = true. Proof. vm_compute. reflexivity. Qed.
Lemma rest_ok spec base c : rest_reserved spec base = true -> 0 <= c < 128 -> spec c = None ->
  exists r, find_row vif_table (base + c) = Some r /\ u_unit r = cstr "Reserved" /\ u_quantity r = cstr "Reserved" /\ (u_exponent r == 1)%Q.
Proof. intros H Hc Hs. pose proof (codes_all 128 _ H c ltac:(lia)) as K. cbv beta in K. rewrite Hs in K. apply reserved_row_spec. exact K. Qed.

(** A code that the extension tables leave free: the value is kept, unit and quantity are "Reserved". *)
Theorem C47_unassigned : forall r vife0 rest value, is_byte vife0 -> r_vife r = vife0 :: rest -> (1 <= r_nvife r)%nat -> r_vif r = 0xFD \/ r_vif r = 0xFB ->
  vib_meaning (r_vif r) vife0 = None ->
  exists x, mbus_vib_unit_normalize r value = Ok (Some (cstr "Reserved", x, cstr "Reserved")) /\ scales value 1 0 x.
Proof.
  intros r v0 rest value H0 Er Hn Hv Hm. unfold mbus_vib_unit_normalize. rewrite Er. cbn [rd nth_error bind]. rewrite (land_mod128 v0 H0). unfold is_byte in H0.
  assert (Nz : (r_nvife r =? 0)%nat = false) by (apply Nat.eqb_neq; lia). rewrite Nz.
  destruct Hv as [E|E]; rewrite E in *; unfold vib_meaning in Hm; cbn [Z.eqb Pos.eqb] in Hm |- *; rewrite lor_code by lia; unfold mbus_vif_unit_normalize; rewrite norm_code by lia.
  - destruct (rest_ok _ _ (v0 mod 128) fd_rest ltac:(lia) Hm) as (row & F & U & Qu & Ex). rewrite F, U, Qu. cbn [negb andb]. eexists. split; [reflexivity|]. apply (scale_row 1); [lia|apply near_refl|exact Ex].
  - destruct (rest_ok _ _ (v0 mod 128) fb_rest ltac:(lia) Hm) as (row & F & U & Qu & Ex). rewrite F, U, Qu. cbn [negb andb]. eexists. split; [reflexivity|]. apply (scale_row 1); [lia|apply near_refl|exact Ex].
Qed.
(** In the main table four codes have no meaning of their own: 6F is reserved (the value becomes 0), 7C takes its unit from the
    text in the record, 7B and 7D without extension have no normalised value. *)
Theorem C47_unassigned_main : forall r vife0 rest value, 0 <= r_vif r < 128 -> r_vife r = vife0 :: rest ->
  (vib_meaning (r_vif r) vife0 = None <-> In (r_vif r) [0x6F; 0x7B; 0x7C; 0x7D]) /\
  (r_vif r = 0x6F -> exists x, mbus_vib_unit_normalize r value = Ok (Some (cstr "Reserved", x, cstr "Reserved")) /\ scales value 0 0 x) /\
  (r_vif r = 0x7C -> mbus_vib_unit_normalize r value = Ok (Some (cstr "-", value, c_text (r_custom r)))) /\
  (r_vif r = 0x7B \/ r_vif r = 0x7D -> mbus_vib_unit_normalize r value = Ok None).
Proof.
  intros r v0 rest value Hv Er.
  split.
  - assert (K : forallb (fun c => Bool.eqb (match vib_meaning c 0 with None => true | _ => false end) ((c =? 0x6F) || (c =? 0x7B) || (c =? 0x7C) || (c =? 0x7D))) (codes 128) = true) by (vm_compute; reflexivity).
    pose proof (codes_all 128 _ K (r_vif r) ltac:(lia)) as L. cbv beta in L. apply eqb_prop in L.
    assert (X : vib_meaning (r_vif r) v0 = vib_meaning (r_vif r) 0).
    { unfold vib_meaning. destruct (Z.eqb_spec (r_vif r) 0xFD); [lia|]. destruct (Z.eqb_spec (r_vif r) 0xFB); [lia|]. reflexivity. }
    rewrite X. cbn [In]. destruct (vib_meaning (r_vif r) 0); split; try discriminate; try (intros; lia). intros _. reflexivity.
  - unfold mbus_vib_unit_normalize. rewrite Er. cbn [rd nth_error bind]. split; [|split].
    + intros ->. unfold mbus_vif_unit_normalize. cbn [Z.eqb Pos.eqb orb Z.land Pos.land negb andb].
      destruct (find_row vif_table 0x6F) as [row|] eqn:F; [|vm_compute in F; discriminate F].
      assert (R : zlist_eqb (u_unit row) (cstr "Reserved") = true /\ zlist_eqb (u_quantity row) (cstr "Reserved") = true /\ Qeq_bool (u_exponent row) 0 = true).
      { vm_compute in F. injection F as <-. vm_compute. auto. }
      destruct R as (R1 & R2 & R3). apply zlist_eqb_eq in R1. apply zlist_eqb_eq in R2. apply Qeq_bool_eq in R3.
      change (Pos.to_nat 1) with 1%nat in *. change (Z.land 111 3967) with 0x6F. 
      match goal with |- context [find_row vif_table ?c] => change c with 0x6F end. rewrite F, R1, R2. eexists. split; [reflexivity|]. apply (scale_row 1); [lia|apply near_refl|exact R3].
    + intros ->. reflexivity.
    + intros [-> | ->]; vm_compute; reflexivity.
Qed.
Print Assumptions C47_unassigned.
Print Assumptions C47_unassigned_main.
(** FB 20 is reserved. *)
Example C47_unassigned_nonvacuous :
  let r := fb_record 0x20 in vib_meaning (r_vif r) 0x20 = None /\ exists x, mbus_vib_unit_normalize r (real_of 1000) = Ok (Some (cstr "Reserved", x, cstr "Reserved")) /\ scales (real_of 1000) 1 0 x.
Proof. split; [vm_compute; reflexivity|]. apply (C47_unassigned (fb_record 0x20) 0x20 []); [unfold is_byte; lia|reflexivity|cbn; lia|right; reflexivity|vm_compute; reflexivity]. Qed.
