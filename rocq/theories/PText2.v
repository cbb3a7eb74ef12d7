(** Proofs: unit, value and table texts are bounded C strings; the meaning of the value text (C54). *)
From Verif Require Import CBase PBase CStr MFrame MCodec MVar MText SText SCodec SVar SXml PCodec PCodec2 PVar3 PXml PText.

(** Characters that need no escaping. *)
Definition plain (c : Z) : Prop := 32 <= c < 256 /\ c <> 127 /\ c <> 38 /\ c <> 60 /\ c <> 62 /\ c <> 34.
Definition plainb (c : Z) : bool :=
  (32 <=? c) && (c <? 256) && negb (c =? 127) && negb (c =? 38) && negb (c =? 60) && negb (c =? 62) && negb (c =? 34).
Lemma plainb_ok c : plainb c = true -> plain c.
Proof. unfold plainb, plain. lia. Qed.
Lemma plain_char c : plain c -> 1 <= c < 256.
Proof. unfold plain. lia. Qed.
Lemma plain_chars l : Forall plain l -> c_chars l.
Proof. apply Forall_impl. exact plain_char. Qed.
Lemma num_plain l : Forall num_char l -> Forall plain l.
Proof. apply Forall_impl. unfold num_char, plain. lia. Qed.
Lemma hex_plain l : Forall hex_char l -> Forall plain l.
Proof. apply Forall_impl. unfold hex_char, plain. lia. Qed.
Lemma escape_plain c : plain c -> escape c = [c].
Proof.
  unfold plain, escape, is_control. intros H.
  replace ((c <? 32) || (c =? 127)) with false by lia. replace (c =? 38) with false by lia.
  replace (c =? 60) with false by lia. replace (c =? 62) with false by lia. replace (c =? 34) with false by lia. reflexivity.
Qed.
Lemma escape_text_plain l : Forall plain l -> escape_text l = l.
Proof.
  induction 1 as [|c l H _ IH]; [reflexivity|]. unfold escape_text in *. cbn [flat_map].
  rewrite escape_plain, IH by assumption. reflexivity.
Qed.

(** A C text of at most n characters. *)
Definition ctext (n : nat) (l : list Z) : Prop := c_chars l /\ (length l <= n)%nat.
Definition ctextb (n : nat) (l : list Z) : bool := forallb (fun c => (1 <=? c) && (c <? 256)) l && (length l <=? n)%nat.
Lemma ctextb_ok n l : ctextb n l = true -> ctext n l.
Proof.
  unfold ctextb, ctext. intros H. apply andb_prop in H. destruct H as [H1 H2].
  split; [|apply Nat.leb_le; assumption]. apply Forall_forall. intros c Hc. rewrite forallb_forall in H1.
  specialize (H1 c Hc). cbv beta in H1. lia.
Qed.
Lemma ctext_app a b n m : ctext n a -> ctext m b -> ctext (n + m) (a ++ b).
Proof. intros [H1 H2] [H3 H4]. split; [apply Forall_app; auto|]. rewrite app_length. lia. Qed.
Lemma ctext_le n m l : ctext n l -> (n <= m)%nat -> ctext m l.
Proof. intros [H1 H2] L. split; [assumption|lia]. Qed.

Lemma switch_prop (P : list Z -> Prop) k tab d : Forall (fun p => P (snd p)) tab -> P d -> P (switch k tab d).
Proof.
  induction 1 as [|[a t] tab H _ IH]; intros Hd; cbn [switch]; [assumption|].
  destruct (k =? a); [exact H|apply IH; assumption].
Qed.
Lemma switch_ctextb n k tab d : forallb (fun p => ctextb n (snd p)) tab = true -> ctext n d -> ctext n (switch k tab d).
Proof.
  intros H Hd. apply switch_prop; [|assumption]. apply Forall_forall. intros p Hp. rewrite forallb_forall in H.
  apply ctextb_ok. exact (H p Hp).
Qed.

(** All unit texts, by computation over the byte. *)
Lemma byte_ctext (f : Z -> list Z) n : forallb (fun b => ctextb n (f b)) (map Z.of_nat (seq 0 256)) = true ->
  forall b, is_byte b -> ctext n (f b).
Proof. intros H b Hb. apply ctextb_ok. exact (byte_cases _ H b Hb). Qed.
Lemma vif_ctext v : is_byte v -> ctext 60 (mbus_vif_unit_lookup v).
Proof. apply byte_ctext. vm_compute. reflexivity. Qed.
Lemma fb_ctext v : is_byte v -> ctext 60 (mbus_vib_unit_lookup_fb v).
Proof. apply byte_ctext. vm_compute. reflexivity. Qed.
Lemma fd_ctext v : is_byte v -> ctext 64 (mbus_vib_unit_lookup_fd v).
Proof. apply byte_ctext. vm_compute. reflexivity. Qed.
Lemma medium_ctext v : is_byte v -> ctext 40 (mbus_data_variable_medium_lookup v).
Proof. apply byte_ctext. vm_compute. reflexivity. Qed.
Lemma error_ctext v : is_byte v -> ctext 40 (mbus_data_error_lookup v).
Proof. apply byte_ctext. vm_compute. reflexivity. Qed.
Lemma fixed_unit_ctext v : is_byte v -> ctext 40 (mbus_data_fixed_unit v).
Proof. apply byte_ctext. vm_compute. reflexivity. Qed.
Lemma fixed_function_ctext v : ctext 40 (mbus_data_fixed_function v).
Proof. unfold mbus_data_fixed_function. destruct (_ =? _); apply ctextb_ok; vm_compute; reflexivity. Qed.
Lemma fixed_medium_ctext x : ctext 40 (mbus_data_fixed_medium x).
Proof. unfold mbus_data_fixed_medium. apply switch_ctextb; [vm_compute; reflexivity|]. apply ctextb_ok; vm_compute; reflexivity. Qed.
Lemma function_ctext r : ctext 24 (mbus_data_record_function r).
Proof. unfold mbus_data_record_function. apply switch_ctextb; [vm_compute; reflexivity|]. apply ctextb_ok; vm_compute; reflexivity. Qed.
Lemma prefix_ctext v : is_byte v -> ctext 6 (mbus_unit_prefix (Z.land v 0x07 - 6)).
Proof. apply (byte_ctext (fun v => mbus_unit_prefix (Z.land v 0x07 - 6))). vm_compute. reflexivity. Qed.

Lemma product_ctext m ver med id3 : ctext 40 (product_name m ver med id3).
Proof.
  unfold product_name.
  repeat match goal with |- ctext 40 (if ?c then _ else _) => destruct c end;
  try (apply ctextb_ok; vm_compute; reflexivity);
  try (apply switch_ctextb; [vm_compute; reflexivity|apply ctextb_ok; vm_compute; reflexivity]).
  apply switch_prop; [|apply ctextb_ok; vm_compute; reflexivity].
  destruct (med =? 6); repeat (apply Forall_cons || apply Forall_nil); cbn [snd]; apply ctextb_ok; vm_compute; reflexivity.
Qed.

(** ** C strings *)
Lemma c_text_chars l : bytes l -> c_chars (c_text l).
Proof.
  induction 1 as [|c l H _ IH]; cbn [c_text]; [constructor|].
  destruct (Z.eqb_spec c 0); [constructor|]. constructor; [unfold is_byte in H; lia|assumption].
Qed.
Lemma c_text_le_len l : (length (c_text l) <= length l)%nat.
Proof. induction l as [|c l IH]; cbn [c_text]; [lia|]. destruct (c =? 0); cbn [length]; lia. Qed.
Lemma c_text_stop a b : (length (c_text (a ++ 0%Z :: b)) <= length a)%nat.
Proof.
  induction a as [|c a IH]; cbn [app c_text length]; [cbn; lia|]. destruct (c =? 0); cbn [length]; lia.
Qed.
Lemma c_text_exact t junk : c_chars t -> c_text (t ++ 0 :: junk) = t.
Proof.
  induction 1 as [|c t H _ IH]; [reflexivity|]. cbn [app c_text].
  destruct (Z.eqb_spec c 0); [lia|]. rewrite IH. reflexivity.
Qed.
Lemma c_chars_cut n l : c_chars l -> c_chars (cut n l).
Proof. apply c_chars_firstn. Qed.
Lemma c_chars_skipn l k : bytes l -> bytes (skipn k l).
Proof. apply bytes_skipn. Qed.

(** ** Record texts *)
(** A record object as the parser produces it. *)
Definition parsed_rec (r : rec) : Prop :=
  rec_bounds r /\ is_byte (r_dif r) /\ is_byte (r_vif r) /\ bytes (r_vife r) /\ bytes (r_dife r) /\
  bytes (r_custom r) /\ bytes (r_data r) /\
  (Z.land (r_dif r) 0x0F = 0x0D -> (1 <= r_len r <= 192)%nat).

Lemma pad_length n l : (length l <= n)%nat -> length (pad n l) = n.
Proof. intros H. unfold pad. rewrite app_length, repeat_length. lia. Qed.
Lemma pad_bytes n l : bytes l -> bytes (pad n l).
Proof.
  intros H. unfold pad. apply Forall_app. split; [assumption|]. apply Forall_forall. intros x Hx.
  apply repeat_spec in Hx. subst. unfold is_byte. lia.
Qed.

Lemma unit_ok r : parsed_rec r -> exists u, mbus_data_record_unit r = Ok u /\ ctext 127 u.
Proof.
  intros ((B1 & B2 & B3 & B4 & B5 & B6 & B7 & B8) & D & V & E & E' & C & _).
  unfold mbus_data_record_unit, mbus_vib_unit_lookup.
  rewrite rd_ok by lia. cbn [bind]. assert (Hv := bytes_nth (r_vife r) 0 E ltac:(lia)).
  set (v0 := nth 0 (r_vife r) 0) in *.
  assert (X : forall t, c_chars t -> exists u, Ok (cut 128 t) = Ok u /\ ctext 127 u).
  { intros t Ht. eexists. split; [reflexivity|]. split; [apply c_chars_cut; assumption|].
    unfold cut. rewrite firstn_length. lia. }
  destruct (r_vif r =? 0xFB).
  { destruct (r_nvife r =? 0)%nat; cbn [bind]; apply X; [apply (ctextb_ok 127); vm_compute; reflexivity|apply fb_ctext; assumption]. }
  destruct (r_vif r =? 0xFD).
  { destruct (r_nvife r =? 0)%nat; cbn [bind]; apply X; [apply (ctextb_ok 127); vm_compute; reflexivity|apply fd_ctext; assumption]. }
  destruct (r_vif r =? 0x7C).
  { cbn [bind]. apply X. apply c_chars_cut, c_text_chars. assumption. }
  destruct ((r_vif r =? 0xFC) && (Z.land v0 0x78 =? 0x70)).
  { cbn [bind]. apply X. apply c_chars_cut. apply Forall_app. split; [apply prefix_ctext; assumption|].
    apply Forall_app. split; [apply (ctextb_ok 1); vm_compute; reflexivity|]. apply c_text_chars. assumption. }
  cbn [bind]. apply X. apply vif_ctext. assumption.
Qed.

Lemma land15_range d : is_byte d -> 0 <= Z.land d 0x0F <= 15.
Proof.
  intros H. assert (E : (0 <=? Z.land d 0x0F) && (Z.land d 0x0F <=? 15) = true) by (revert d H; apply byte_cases; vm_compute; reflexivity).
  lia.
Qed.

Lemma twos_abs n u : (1 <= n)%nat -> 0 <= u < 256 ^ Z.of_nat n -> Z.abs (twos n u) <= 256 ^ Z.of_nat n.
Proof.
  intros Hn H. unfold twos. assert (E : 2 ^ (8 * Z.of_nat n) = 256 ^ Z.of_nat n) by (rewrite Z.pow_mul_r by lia; reflexivity).
  rewrite E. destruct (_ <? _); lia.
Qed.
Lemma le_firstn_range d n : bytes d -> (n <= length d)%nat -> 0 <= le (firstn n d) < 256 ^ Z.of_nat n.
Proof.
  intros H L. pose proof (le_bounds (firstn n d) (bytes_firstn n d H)) as B. rewrite firstn_length, Nat.min_l in B by lia. exact B.
Qed.

(** Lengths of the numbers. *)
Lemma small_num z : Z.abs z <= 256 ^ 8 -> Forall plain (fmt_d z) /\ (length (fmt_d z) <= 48)%nat.
Proof.
  intros H. split; [apply num_plain, fmt_d_chars|].
  pose proof (fmt_d_len z 20 ltac:(change (10 ^ Z.of_nat 21) with 1000000000000000000000; change (256 ^ 8) with 18446744073709551616 in H; lia)). lia.
Qed.
Lemma small_hex n : 0 <= n < 256 ^ 8 -> Forall plain (fmt_X n) /\ (length (fmt_X n) <= 48)%nat.
Proof.
  intros H. split; [apply hex_plain, fmt_X_chars; lia|].
  pose proof (fmt_X_len n 15 ltac:(change (16 ^ Z.of_nat 16) with (256 ^ 8); lia)). lia.
Qed.

Definition short_plain (t : list Z) : Prop := Forall plain t /\ (length t <= 48)%nat.

Lemma zpad_num_plain w z : Forall plain (zpad w (fmt_d z)).
Proof. apply zpad_chars; [unfold plain; lia|]. apply num_plain, fmt_d_chars. Qed.
Lemma fmt_pad_len w z : Z.abs z < 10000 -> (length (zpad w (fmt_d z)) <= Nat.max w 5)%nat.
Proof. intros H. rewrite zpad_len. pose proof (fmt_d_len z 3 ltac:(change (10 ^ Z.of_nat 4) with 10000; lia)). lia. Qed.

Definition tm_small (t : tm) : Prop :=
  0 <= tm_sec t < 100 /\ 0 <= tm_min t < 100 /\ 0 <= tm_hour t < 100 /\ 0 <= tm_mday t < 100 /\
  -1 <= tm_mon t < 90 /\ 0 <= tm_year t < 1000.
Lemma date_short t : tm_small t -> short_plain (fmt_date t) /\ (length (fmt_date t) <= 20)%nat.
Proof.
  intros (H1 & H2 & H3 & H4 & H5 & H6). unfold fmt_date, fmt_04d, fmt_02d.
  pose proof (fmt_pad_len 4 (tm_year t + 1900) ltac:(lia)).
  pose proof (fmt_pad_len 2 (tm_mon t + 1) ltac:(lia)).
  pose proof (fmt_pad_len 2 (tm_mday t) ltac:(lia)).
  unfold short_plain. rewrite !app_length. cbn [length]. split; [|lia]. split; [|lia].
  rewrite !Forall_app. repeat split; try apply zpad_num_plain; repeat constructor; unfold plain; lia.
Qed.
Lemma datetime_short t : tm_small t -> short_plain (fmt_datetime t).
Proof.
  intros H. destruct (date_short t H) as [[P _] L]. destruct H as (H1 & H2 & H3 & H4 & H5 & H6).
  unfold fmt_datetime, fmt_02d.
  pose proof (fmt_pad_len 2 (tm_hour t) ltac:(lia)).
  pose proof (fmt_pad_len 2 (tm_min t) ltac:(lia)).
  pose proof (fmt_pad_len 2 (tm_sec t) ltac:(lia)).
  unfold short_plain. rewrite !app_length. cbn [length]. split; [|lia].
  rewrite !Forall_app. repeat split; try apply zpad_num_plain; try assumption; repeat constructor; unfold plain; lia.
Qed.
