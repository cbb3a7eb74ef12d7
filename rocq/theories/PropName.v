(** Theorems: names shown for codes (C63). *)
From Coq Require Import String.
From Coq Require Import List.
From Verif Require Import CBase PBase CStr MFrame MCodec MVar MText SText SUText SName PropUnit PropUText.
Local Open Scope Z_scope.

Definition unknown_b (intro : string) (code : Z) (t : list Z) : bool :=
  match after (cstr intro) t with
  | Some (d1 :: d2 :: r) => if same r (cstr ")") then match read_nat 16 [d1; d2] with Some c => c =? code | None => false end else false
  | _ => false
  end.
Lemma after_ok p t r : after p t = Some r -> t = p ++ r.
Proof.
  revert t. induction p as [|x p IH]; intros t H; cbn [after] in H; [injection H as ->; reflexivity|]. destruct t as [|y t]; [discriminate|].
  destruct (Z.eqb_spec x y); [|discriminate]. subst. cbn [app]. f_equal. auto.
Qed.
Lemma unknown_b_ok intro code t : unknown_b intro code t = true -> unknown_code intro code t.
Proof.
  unfold unknown_b, unknown_code. destruct (after (cstr intro) t) as [[|d1 [|d2 r]]|] eqn:A; try discriminate. intros H. apply after_ok in A.
  destruct (same r (cstr ")")) eqn:R; [|discriminate]. apply same_eq in R. subst r. exists d1, d2. split; [exact A|].
  destruct (read_nat 16 [d1; d2]) as [c|]; [|discriminate]. apply Z.eqb_eq in H. congruence.
Qed.
(** C63: device types. Assigned codes show their name; reserved ones say so, or show the code. *)
Theorem C63_device :
  forall code, is_byte code ->
  match device_name code with
  | Some n => mbus_data_variable_medium_lookup code = cstr n
  | None => mbus_data_variable_medium_lookup code = cstr "Reserved" \/ unknown_code "Unknown medium (0x" code (mbus_data_variable_medium_lookup code)
  end.
Proof.
  assert (K : forallb (fun c => match device_name c with
    | Some n => same (mbus_data_variable_medium_lookup c) (cstr n)
    | None => if same (mbus_data_variable_medium_lookup c) (cstr "Reserved") then true else unknown_b "Unknown medium (0x" c (mbus_data_variable_medium_lookup c) end) (codes 256) = true) by (vm_compute; reflexivity).
  intros c H. unfold is_byte in H. pose proof (codes_all 256 _ K c ltac:(lia)) as L. cbv beta in L. destruct (device_name c).
  - apply same_eq. assumption.
  - destruct (same (mbus_data_variable_medium_lookup c) (cstr "Reserved")) eqn:S; [left; apply same_eq; assumption|right; apply unknown_b_ok; assumption].
Qed.
(** C63: so different device types are never shown alike, unless both are reserved. *)
Theorem C63_device_distinct :
  forall c d, is_byte c -> is_byte d -> mbus_data_variable_medium_lookup c = mbus_data_variable_medium_lookup d ->
  c = d \/ (device_name c = None /\ device_name d = None /\ mbus_data_variable_medium_lookup c = cstr "Reserved").
Proof.
  assert (K : forallb (fun c => forallb (fun d => if same (mbus_data_variable_medium_lookup c) (mbus_data_variable_medium_lookup d) then
     if c =? d then true else match device_name c, device_name d with None, None => same (mbus_data_variable_medium_lookup c) (cstr "Reserved") | _, _ => false end
     else true) (codes 256)) (codes 256) = true) by (vm_compute; reflexivity).
  intros c d Hc Hd E. unfold is_byte in *. pose proof (codes_all 256 _ K c ltac:(lia)) as L. cbv beta in L. pose proof (codes_all 256 _ L d ltac:(lia)) as M. cbv beta in M.
  rewrite E in M at 1. assert (R : forall l, same l l = true) by (induction l as [|x l IH]; [reflexivity|]; cbn [same]; rewrite Z.eqb_refl; assumption). rewrite R in M.
  destruct (Z.eqb_spec c d); [left; assumption|right]. destruct (device_name c); [discriminate|]. destruct (device_name d); [discriminate|]. auto using same_eq.
Qed.
(** C63: application errors. *)
Theorem C63_error :
  forall code, is_byte code ->
  match nth_error error_names (Z.to_nat code) with
  | Some n => mbus_data_error_lookup code = cstr n
  | None => unknown_code "Unknown error (0x" code (mbus_data_error_lookup code)
  end.
Proof.
  assert (K : forallb (fun c => match nth_error error_names (Z.to_nat c) with
    | Some n => same (mbus_data_error_lookup c) (cstr n)
    | None => unknown_b "Unknown error (0x" c (mbus_data_error_lookup c) end) (codes 256) = true) by (vm_compute; reflexivity).
  intros c H. unfold is_byte in H. pose proof (codes_all 256 _ K c ltac:(lia)) as L. cbv beta in L. destruct (nth_error error_names (Z.to_nat c)).
  - apply same_eq. assumption.
  - apply unknown_b_ok. assumption.
Qed.
(** C63: medium and state of the counters of the fixed data structure. *)
Theorem C63_fixed :
  forall x, is_byte (x_type1 x) -> is_byte (x_type2 x) -> is_byte (x_status x) ->
  mbus_data_fixed_medium x = cstr (nth (Z.to_nat (fixed_medium_code (x_type1 x) (x_type2 x))) fixed_media ""%string) /\
  mbus_data_fixed_function (x_status x) = cstr (if x_status x / 64 mod 2 =? 0 then "Actual value" else "Stored value").
Proof.
  intros x H1 H2 H3. unfold is_byte in *. split.
  - unfold mbus_data_fixed_medium. assert (K : forall b, 0 <= b < 256 -> Z.land b 0xC0 = 64 * (b / 64)).
    { assert (A : forallb (fun b => Z.land b 0xC0 =? 64 * (b / 64)) (codes 256) = true) by (vm_compute; reflexivity).
      intros b Hb. apply Z.eqb_eq. exact (codes_all 256 _ A b ltac:(lia)). }
    rewrite (K (x_type1 x)), (K (x_type2 x)) by lia. unfold fixed_medium_code.
    assert (P : 0 <= x_type1 x / 64 < 4) by lia. assert (Q : 0 <= x_type2 x / 64 < 4) by lia. generalize dependent (x_type1 x / 64). generalize dependent (x_type2 x / 64). intros q Q p P.
    assert (C : (p = 0 \/ p = 1 \/ p = 2 \/ p = 3) /\ (q = 0 \/ q = 1 \/ q = 2 \/ q = 3)) by lia. destruct C as [[->|[->|[->| ->]]] [->|[->|[->| ->]]]]; vm_compute; reflexivity.
  - assert (A : forallb (fun b => same (mbus_data_fixed_function b) (cstr (if b / 64 mod 2 =? 0 then "Actual value" else "Stored value"))) (codes 256) = true) by (vm_compute; reflexivity).
    apply same_eq. exact (codes_all 256 _ A (x_status x) ltac:(lia)).
Qed.
Print Assumptions C63_device.
Print Assumptions C63_device_distinct.
Print Assumptions C63_error.
Print Assumptions C63_fixed.
Example C63_nonvacuous :
  mbus_data_variable_medium_lookup 0x07 = cstr "Water" /\ mbus_data_variable_medium_lookup 0xAB = cstr "Unknown medium (0xab)" /\
  mbus_data_error_lookup 8 = cstr "Application busy" /\ mbus_data_fixed_medium (mkFix [] 0 0 0xE9 0x7E [] []) = cstr "Water".
Proof. repeat split. Qed.
