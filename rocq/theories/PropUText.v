(** Theorems: unit texts (C62). *)
From Coq Require Import String.
From Coq Require Import List.
From Coq Require Import QArith.
From Verif Require Import CBase PBase CStr MFrame MCodec MVar MText MUnit SText SCodec SVar SXml SUnit SNorm SUText SMean.
From Verif Require Import PCodec PCodec2 PVar3 PXml PText PText2 PText3 PropText PropUnit PDouble PNorm.
Local Open Scope Z_scope.

Lemma same_eq s t : same s t = true -> s = t.
Proof.
  revert t. induction s as [|x s IH]; intros [|y t] H; try discriminate; [reflexivity|]. cbn [same] in H. destruct (Z.eqb_spec x y); [|discriminate]. subst. f_equal. auto.
Qed.
Definition says_b (t : list Z) (m : meaning) : bool :=
  match read_unit_text t with
  | Some m' => if Qeq_bool (m_factor m') (m_factor m) then if same (m_unit m') (m_unit m) then same (m_quantity m') (m_quantity m) else false else false
  | None => false
  end.
Lemma says_b_ok t m : says_b t m = true -> says t m.
Proof.
  unfold says_b, says. destruct (read_unit_text t) as [m'|]; [|discriminate]. destruct (Qeq_bool (m_factor m') (m_factor m)) eqn:F; [|discriminate].
  destruct (same (m_unit m') (m_unit m)) eqn:U; [|discriminate]. intros Q. exists m'. split; [reflexivity|].
  split; [apply Qeq_bool_eq; assumption|]. split; apply same_eq; assumption.
Qed.
(** All codes of a table: the text says what the code means, and codes without meaning have texts that say nothing. *)
Definition table_ok (f : Z -> list Z) (g : Z -> option meaning) (skip : Z -> bool) : bool :=
  forallb (fun c => if (List.length (f c) <? 128)%nat then
             match g (c mod 128) with
             | Some m => if skip (c mod 128) then true else says_b (f c) m
             | None => match read_unit_text (f c) with Some _ => false | None => true end
             end else false) (codes 256).
Lemma table_ok_spec f g skip : table_ok f g skip = true -> forall c, is_byte c ->
  (List.length (f c) < 128)%nat /\
  match g (c mod 128) with
  | Some m => skip (c mod 128) = false -> says (f c) m
  | None => read_unit_text (f c) = None
  end.
Proof.
  intros H c Hc. unfold is_byte in Hc. pose proof (codes_all 256 _ H c ltac:(lia)) as L. cbv beta in L.
  destruct (Nat.ltb_spec (List.length (f c)) 128); [|discriminate]. split; [assumption|]. destruct (g (c mod 128)).
  - intros E. rewrite E in L. apply says_b_ok. assumption.
  - destruct (read_unit_text (f c)); [discriminate|reflexivity].
Qed.
Definition no_text (c : Z) : bool := (c =? 0x79) || (c =? 0x7E).
Lemma main_ok : table_ok mbus_vif_unit_lookup main_vif no_text = true. Proof. vm_compute. reflexivity. Qed.
Lemma fb_ok : table_ok mbus_vib_unit_lookup_fb fb_vif (fun _ => false) = true. Proof. vm_compute. reflexivity. Qed.
Lemma fd_ok : table_ok mbus_vib_unit_lookup_fd fd_vif (fun _ => false) = true. Proof. vm_compute. reflexivity. Qed.

Lemma wf_vife a : wf_rec a -> is_byte (a_vif a) /\ (128 <= a_vif a -> exists c cs, a_vifes a = c :: cs /\ is_byte c).
Proof.
  intros W. destruct W as (_ & _ & _ & _ & _ & C & _ & _ & _ & _ & B). unfold enc_rec in B.
  unfold bytes in B. rewrite !Forall_cons_iff, !Forall_app, Forall_cons_iff, !Forall_app in B. destruct B as (_ & _ & Bv & _ & Be & _).
  split; [assumption|]. intros H. destruct (a_vifes a) as [|c cs]; [cbn [chained] in C; lia|]. exists c, cs. split; [reflexivity|]. inversion Be; assumption.
Qed.
(** The text for a record whose unit is not given in plain text. *)
Lemma unit_lookup a : wf_rec a -> has_text (a_vif a) = false ->
  mbus_data_record_unit (obj a) = Ok (cut 128 (if a_vif a =? 0xFB then mbus_vib_unit_lookup_fb (nth 0 (a_vifes a) 0)
    else if a_vif a =? 0xFD then mbus_vib_unit_lookup_fd (nth 0 (a_vifes a) 0) else mbus_vif_unit_lookup (a_vif a))).
Proof.
  intros W T. destruct (wf_vife a W) as [Hv He]. unfold mbus_data_record_unit, mbus_vib_unit_lookup.
  assert (R : rd (r_vife (obj a)) 0 = Ok (nth 0 (a_vifes a) 0)) by (cbn [obj r_vife]; unfold pad; destruct (a_vifes a); reflexivity).
  rewrite R. cbn [bind obj r_vif r_nvife]. unfold has_text in T. unfold is_byte in Hv.
  destruct (Z.eqb_spec (a_vif a) 0xFB) as [E|E]; [destruct He as (c & cs & Ec & _); [lia|]; rewrite Ec; reflexivity|].
  destruct (Z.eqb_spec (a_vif a) 0xFD) as [E'|E']; [destruct He as (c & cs & Ec & _); [lia|]; rewrite Ec; reflexivity|].
  destruct (Z.eqb_spec (a_vif a) 0x7C) as [E1|E1]; [rewrite E1 in T; discriminate|].
  destruct (Z.eqb_spec (a_vif a) 0xFC) as [E2|E2]; [rewrite E2 in T; discriminate|]. reflexivity.
Qed.
Lemma cut_short n s : (List.length s < n)%nat -> cut n s = s.
Proof. intros H. unfold cut. apply firstn_all2. lia. Qed.

(** C62: for every record whose unit code means something in the standard, except the codes 79 and 7E of the main table,
    the text shown says exactly the factor, base unit and quantity of the code. *)
Theorem C62_unit_text_partial :
  forall a m, wf_rec a -> has_text (a_vif a) = false -> unit_of a = Some m -> ~ In (a_vif a mod 128) [0x79; 0x7E] ->
  exists u, mbus_data_record_unit (obj a) = Ok u /\ says u m.
Proof.
  intros a m W T U N. rewrite (unit_lookup a W T). destruct (wf_vife a W) as [Hv He]. unfold unit_of in U. rewrite T in U. unfold vib_meaning in U.
  destruct (Z.eqb_spec (a_vif a) 0xFD) as [E|E].
  - rewrite E. change (0xFD =? 0xFB) with false. cbv iota. destruct He as (c & cs & Ec & Hc); [lia|]. rewrite Ec in *. cbn [nth] in *.
    pose proof (table_ok_spec _ _ _ fd_ok c Hc) as [L S1]. rewrite U in S1. eexists. split; [reflexivity|]. rewrite cut_short by assumption. apply S1. reflexivity.
  - destruct (Z.eqb_spec (a_vif a) 0xFB) as [E'|E'].
    + destruct He as (c & cs & Ec & Hc); [lia|]. rewrite Ec in *. cbn [nth] in *.
      pose proof (table_ok_spec _ _ _ fb_ok c Hc) as [L S1]. rewrite U in S1. eexists. split; [reflexivity|]. rewrite cut_short by assumption. apply S1. reflexivity.
    + pose proof (table_ok_spec _ _ _ main_ok (a_vif a) Hv) as [L S1]. rewrite U in S1. eexists. split; [reflexivity|]. rewrite cut_short by assumption. apply S1.
      unfold no_text. cbn [In] in N. lia.
Qed.
Print Assumptions C62_unit_text_partial.
(** C62: a record with a reserved code never gets a text that says a unit or quantity. *)
Theorem C62_reserved :
  forall a, wf_rec a -> has_text (a_vif a) = false -> unit_of a = None ->
  exists u, mbus_data_record_unit (obj a) = Ok u /\ read_unit_text u = None.
Proof.
  intros a W T U. rewrite (unit_lookup a W T). destruct (wf_vife a W) as [Hv He]. unfold unit_of in U. rewrite T in U. unfold vib_meaning in U.
  destruct (Z.eqb_spec (a_vif a) 0xFD) as [E|E].
  - rewrite E. change (0xFD =? 0xFB) with false. cbv iota. destruct He as (c & cs & Ec & Hc); [lia|]. rewrite Ec in *. cbn [nth] in *.
    pose proof (table_ok_spec _ _ _ fd_ok c Hc) as [L S1]. rewrite U in S1. eexists. split; [reflexivity|]. rewrite cut_short by assumption. exact S1.
  - destruct (Z.eqb_spec (a_vif a) 0xFB) as [E'|E'].
    + destruct He as (c & cs & Ec & Hc); [lia|]. rewrite Ec in *. cbn [nth] in *.
      pose proof (table_ok_spec _ _ _ fb_ok c Hc) as [L S1]. rewrite U in S1. eexists. split; [reflexivity|]. rewrite cut_short by assumption. exact S1.
    + pose proof (table_ok_spec _ _ _ main_ok (a_vif a) Hv) as [L S1]. rewrite U in S1. eexists. split; [reflexivity|]. rewrite cut_short by assumption. exact S1.
Qed.
Print Assumptions C62_reserved.

(** ** Units in plain text *)
Lemma custom_text a : wf_rec a -> c_chars (a_text a) -> c_text (r_custom (obj a)) = a_text a.
Proof.
  intros W H. destruct W as (_ & _ & _ & _ & _ & _ & _ & L & _). cbn [obj r_custom]. unfold pad.
  replace (128 - List.length (a_text a))%nat with (S (127 - List.length (a_text a))) by lia. cbn [repeat]. apply c_text_exact. assumption.
Qed.
Lemma prefix_multiple e : -6 <= e <= 1 -> multiple (mbus_unit_prefix e) e /\ (List.length (mbus_unit_prefix e) <= 5)%nat.
Proof.
  intros H. assert (C : e = -6 \/ e = -5 \/ e = -4 \/ e = -3 \/ e = -2 \/ e = -1 \/ e = 0 \/ e = 1) by lia.
  destruct C as [->|[->|[->|[->|[->|[->|[->| ->]]]]]]]; (split; [|vm_compute; lia]).
  - apply (mu_text "my" (-6)). cbn. tauto.
  - exact (mu_power (cstr "-5") (-5) eq_refl).
  - exact (mu_power (cstr "-4") (-4) eq_refl).
  - apply (mu_text "m" (-3)). cbn. tauto.
  - exact (mu_power (cstr "-2") (-2) eq_refl).
  - exact (mu_power (cstr "-1") (-1) eq_refl).
  - apply mu_one.
  - apply (mu_text "10 " 1). cbn. tauto.
Qed.
Lemma vife_power c : is_byte c -> (Z.land c 0x78 =? 0x70) = ((0x70 <=? c mod 128) && (c mod 128 <=? 0x77)) /\
  (0x70 <= c mod 128 <= 0x77 -> Z.land c 0x07 - 6 = c mod 128 - 0x70 - 6).
Proof.
  intros H. assert (K : forallb (fun c => if Bool.eqb (Z.land c 0x78 =? 0x70) ((0x70 <=? c mod 128) && (c mod 128 <=? 0x77))
    then if ((0x70 <=? c mod 128) && (c mod 128 <=? 0x77)) then Z.land c 0x07 - 6 =? c mod 128 - 0x70 - 6 else true else false) (codes 256) = true) by (vm_compute; reflexivity).
  unfold is_byte in H. pose proof (codes_all 256 _ K c ltac:(lia)) as L. clear K. cbv beta in L.
  destruct (Z.land c 0x78 =? 0x70); destruct ((0x70 <=? c mod 128) && (c mod 128 <=? 0x77)) eqn:E; cbn [Bool.eqb] in L; try discriminate; split; try reflexivity; lia.
Qed.
Lemma unit_custom a : wf_rec a -> has_text (a_vif a) = true -> c_chars (a_text a) ->
  mbus_data_record_unit (obj a) = Ok (
    if a_vif a =? 0x7C then a_text a
    else if (0x70 <=? nth 0 (a_vifes a) 0 mod 128) && (nth 0 (a_vifes a) 0 mod 128 <=? 0x77)
    then cut 128 (mbus_unit_prefix (nth 0 (a_vifes a) 0 mod 128 - 0x70 - 6) ++ [32] ++ a_text a)
    else cstr "Custom VIF").
Proof.
  intros W T C. destruct (wf_vife a W) as [Hv He]. assert (L : (List.length (a_text a) <= 127)%nat) by (destruct W as (_ & _ & _ & _ & _ & _ & _ & L & _); assumption).
  unfold mbus_data_record_unit, mbus_vib_unit_lookup.
  assert (R : rd (r_vife (obj a)) 0 = Ok (nth 0 (a_vifes a) 0)) by (cbn [obj r_vife]; unfold pad; destruct (a_vifes a); reflexivity).
  rewrite R. cbn [bind]. rewrite (custom_text a W C). change (r_vif (obj a)) with (a_vif a). unfold has_text, is_byte in *.
  destruct (Z.eqb_spec (a_vif a) 0xFB) as [E|E]; [lia|]. destruct (Z.eqb_spec (a_vif a) 0xFD) as [E'|E']; [lia|].
  destruct (Z.eqb_spec (a_vif a) 0x7C) as [E1|E1].
  - cbn [bind]. rewrite (cut_short 256) by lia. rewrite (cut_short 128) by lia. reflexivity.
  - assert (E2 : a_vif a = 0xFC) by lia. rewrite E2. change (0xFC =? 0xFC) with true. cbn [andb].
    destruct He as (c & cs & Ec & Hc); [lia|]. rewrite Ec. cbn [nth]. destruct (vife_power c Hc) as [V1 V2]. rewrite V1.
    destruct ((0x70 <=? c mod 128) && (c mod 128 <=? 0x77)) eqn:B; [|reflexivity].
    rewrite V2 by lia. cbn [bind]. f_equal. change (cstr " ") with [32]. destruct (prefix_multiple (c mod 128 - 0x70 - 6) ltac:(lia)) as [_ P].
    rewrite (cut_short 256); [reflexivity|]. rewrite !app_length. cbn [List.length]. lia.
Qed.
(** C62: a unit sent as text is shown as that text (VIF 7C), with its power of ten if the extension gives one (VIF FC);
    more than 121 characters are cut off in the latter case. *)
Theorem C62_plain_text_partial :
  forall a, wf_rec a -> has_text (a_vif a) = true -> c_chars (a_text a) ->
  (a_vif a = 0x7C -> mbus_data_record_unit (obj a) = Ok (a_text a)) /\
  (forall n, a_vif a = 0xFC -> 0 <= n <= 7 -> nth 0 (a_vifes a) 0 mod 128 = 0x70 + n ->
   exists s, multiple s (n - 6) /\ mbus_data_record_unit (obj a) = Ok (firstn 127 (s ++ [32] ++ a_text a))).
Proof.
  intros a W T C. rewrite (unit_custom a W T C). split.
  - intros ->. reflexivity.
  - intros n E Hn V. rewrite E, V. change (0xFC =? 0x7C) with false. cbv iota. destruct (Z.leb_spec 0x70 (0x70 + n)); [|lia]. destruct (Z.leb_spec (0x70 + n) 0x77); [|lia].
    cbn [andb]. replace (0x70 + n - 0x70 - 6) with (n - 6) by lia. exists (mbus_unit_prefix (n - 6)). split; [apply prefix_multiple; lia|reflexivity].
Qed.
Print Assumptions C62_plain_text_partial.

(** C62 fails: the codes 79 (enhanced identification) and 7E (any VIF) have no text; the text sent with VIF FC is not shown
    if the extension is not a power of ten; a correction factor in the extension of another VIF is not shown, so that
    the value of the record, read with its unit, is wrong by that factor. *)
Definition fc_rec : arec := mkA 0x01 [] 0xFC (cstr "hits") [0x20] [5].
Definition corrected : arec := mkA 0x01 [] 0x93 [] [0x75] [5].
Theorem C62_refuted :
  (forall a m, wf_rec a -> In (a_vif a) [0x79; 0x7E] -> unit_of a = Some m -> exists u, mbus_data_record_unit (obj a) = Ok u /\ ~ says u m) /\
  (wf_rec fc_rec /\ mbus_data_record_unit (obj fc_rec) = Ok (cstr "Custom VIF")) /\
  (exists m u, wf_rec corrected /\ unit_of corrected = Some m /\ mbus_data_record_unit (obj corrected) = Ok u /\ says u m /\
     ~ (correction (a_vif corrected) (nth 0 (a_vifes corrected) 0%Z) == 1)%Q).
Proof.
  split; [|split].
  - intros a m W H U. assert (T : has_text (a_vif a) = false) by (destruct H as [<-|[<-|[]]]; reflexivity). rewrite (unit_lookup a W T). eexists. split; [reflexivity|].
    intros (m' & R & _). destruct H as [H|[H|[]]]; rewrite <- H in R; vm_compute in R; discriminate.
  - split; [unfold fc_rec; wf_example|vm_compute; reflexivity].
  - exists (mkM (ten (-3)) (cstr "m^3") (cstr "Volume")), (cstr "Volume (m m^3)").
    split; [unfold corrected; wf_example|]. split; [reflexivity|]. split; [vm_compute; reflexivity|].
    split; [apply says_b_ok; vm_compute; reflexivity|]. vm_compute. discriminate.
Qed.
Print Assumptions C62_refuted.
(** A volume flow in an FB record; a count in plain text. *)
Example C62_nonvacuous :
  let a := mkA 0x04 [] 0xFB [] [0x24] [1; 2; 3; 4] in
  let b := mkA 0x01 [] 0x7C (cstr "hits") [] [5] in
  wf_rec a /\ unit_of a = Some (mkM (ten (-3)) (cstr "American gallon/min") (cstr "Volume flow")) /\
  mbus_data_record_unit (obj a) = Ok (cstr "Volume flow (0.001 american gallon/min)") /\
  wf_rec b /\ mbus_data_record_unit (obj b) = Ok (cstr "hits").
Proof. cbv zeta. split; [wf_example|]. split; [reflexivity|]. split; [vm_compute; reflexivity|]. split; [wf_example|vm_compute; reflexivity]. Qed.
