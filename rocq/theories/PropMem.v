(** C79-C81: the lists and buffers of the library, object by object, with any allocation allowed to fail. *)
From Coq Require Import String.
From Coq Require Import List.
From Verif Require Import CBase PBase CStr MFrame SWire MCodec MVar SVar MText MXml SXml MSecond PXml3 PXml4 PropXml PropVar MMem SMem PMem PMem2.
Local Open Scope Z_scope.

(** ** C79: record lists and frame chains *)
(** Releasing a list releases each of its records exactly once and nothing else (a second release of the same object, or the
    use of a released one, would be undefined). *)
Theorem C79_record_free : forall m p l, chain m p l ->
  exists m', mbus_data_record_free p m = Ok m' /\ released (map fst l) m m' /\ m_fails m' = m_fails m.
Proof. intros m p l H. destruct (record_free_ok p m l H) as (m' & E & R & _ & F). eauto. Qed.
(** Appending a record, or a whole list, to a list: all in order, the new ones at the end; no object other than those of the
    first list is changed, none is allocated or released. *)
Theorem C79_record_append : forall m head l p l2, chain m head l -> chain m p l2 -> (forall a, In a (map fst l) -> ~ In a (map fst l2)) ->
  exists head' m', mbus_data_record_append head p m = Ok (head', m') /\ chain m' head' (l ++ l2) /\ (head <> None -> head' = head) /\
    (forall a, look m' a = None <-> look m a = None) /\ (forall a, ~ In a (map fst l) -> look m' a = look m a).
Proof. intros m head l p l2 H H2 D. destruct (append_list head m l p l2 H H2 D) as (h' & m' & A & B & C & E & F & _). exists h', m'. auto. Qed.
(** Releasing a chain of frames likewise; the result is 0, for NULL it is -1. *)
Theorem C79_frame_free : forall m p l, fchain m p l ->
  exists m', mbus_frame_free p m = Ok (match p with None => -1 | Some _ => 0 end, m') /\ released (map fst l) m m'.
Proof. intros m p l H. destruct (frame_free_ok p m l H) as (m' & E & R & _). eauto. Qed.
(** The rules the caller must keep: a list is not released twice, and is not appended to itself. *)
Theorem C79_free_twice_needs_rule : forall m p l m', chain m p l -> l <> [] -> mbus_data_record_free p m = Ok m' -> mbus_data_record_free p m' = UB.
Proof.
  intros m p l m' H N E. destruct (record_free_ok p m l H) as (m1 & E1 & (R1 & _) & _). rewrite E1 in E. apply ok_inj in E. subst m1.
  inversion H as [|a r next k L K]; subst; [congruence|]. unfold mbus_data_record_free. cbn [record_free_from]. destruct (R1 a (or_introl eq_refl)) as [_ ->]. reflexivity.
Qed.
Theorem C79_append_itself_needs_rule : forall m p l, chain m p l -> l <> [] ->
  exists m', mbus_data_record_append p p m = Ok (p, m') /\ forall q, mbus_data_record_append p q m' = match q with None => Ok (p, m') | Some _ => UB end.
Proof.
  intros m p l H N. destruct p as [h|]; [|inversion H; subst; congruence].
  destruct (record_last_chain (S (length (m_cells m))) h m l H) as (b & s & l' & E1 & -> & Lb); [apply chain_short in H; lia|].
  cbn [mbus_data_record_append]. rewrite E1. cbn [bind]. rewrite Lb. destruct (store_ok b m _ (CRec s (Some h)) Lb) as (m' & E2 & L1 & L2 & L3 & L4). rewrite E2. cbn [bind].
  exists m'. split; [reflexivity|]. intros [q|]; [|reflexivity].
  (* every record now has a successor *)
  assert (Go : forall fuel c l2, chain m (Some c) (l2 ++ [(b, s)]) -> NoDup (map fst (l2 ++ [(b, s)])) -> (forall fu, (fu < fuel)%nat -> record_last fu h m' = UB) -> record_last fuel c m' = UB).
  { induction fuel as [|fuel IH]; intros c l2 C ND Hh; [reflexivity|]. cbn [record_last]. destruct l2 as [|[y ry] l2]; cbn in C; inversion C as [|y' ry' nx kk Ly Ch]; subst.
    - rewrite L1. apply Hh. lia.
    - cbn in ND. inversion ND as [|? ? Nc ND2]; subst. assert (y <> b). { intros ->. apply Nc. rewrite map_app. apply in_or_app. right. left. reflexivity. }
      rewrite L2 by assumption. rewrite Ly. destruct nx as [c2|].
      + eapply IH; [exact Ch|exact ND2|]. intros fu Lt. apply Hh. lia.
      + inversion Ch as [Q|]. destruct l2; discriminate. }
  assert (All : forall fuel, record_last fuel h m' = UB).
  { intros fuel. induction fuel as [fuel IHf] using lt_wf_ind. eapply Go; [exact H|eapply chain_nodup; exact H|]. intros fu Lt. apply IHf. exact Lt. }
  cbn [mbus_data_record_append]. rewrite All. reflexivity.
Qed.
Print Assumptions C79_record_free.
Print Assumptions C79_record_append.
Print Assumptions C79_frame_free.
Print Assumptions C79_free_twice_needs_rule.
Print Assumptions C79_append_itself_needs_rule.
(** Two records at addresses 2 and 0, one at 1, a frame at 3. *)
Definition ex_r (v : Z) : rec := obj (mkA 0x01 [] 0x13 [] [] [v]).
Definition ex_mem : mem := mkM [Some (CRec (ex_r 2) None); Some (CRec (ex_r 3) None); Some (CRec (ex_r 1) (Some 0%nat)); Some (CFrame small_frame None)] [].
Example C79_nonvacuous : chain ex_mem (Some 2%nat) [(2%nat, ex_r 1); (0%nat, ex_r 2)] /\ chain ex_mem (Some 1%nat) [(1%nat, ex_r 3)] /\ fchain ex_mem (Some 3%nat) [(3%nat, small_frame)] /\
  mbus_data_record_free (Some 2%nat) ex_mem = Ok (mkM [None; Some (CRec (ex_r 3) None); None; Some (CFrame small_frame None)] []) /\
  mbus_data_record_append (Some 2%nat) (Some 1%nat) ex_mem =
    Ok (Some 2%nat, mkM [Some (CRec (ex_r 2) (Some 1%nat)); Some (CRec (ex_r 3) None); Some (CRec (ex_r 1) (Some 0%nat)); Some (CFrame small_frame None)] []).
Proof.
  split; [econstructor; [reflexivity|econstructor; [reflexivity|constructor]]|]. split; [econstructor; [reflexivity|constructor]|]. split; [econstructor; [reflexivity|constructor]|]. split; reflexivity.
Qed.

(** ** C80: payload parser and secondary address under shortage of memory *)
(** [mbus_frame_data_parse] on a zeroed object: the records are new objects, in a list starting at the object's record pointer,
    and nothing else is allocated or released. If no allocation failed, the result is that of the parser without shortage;
    if one failed, the code is -2, and the list has the first of the records, fewer than the parser would have read (or the
    telegram has a faulty record after them). *)
Definition parsed (c : Z) (fd : fdat) (c' : Z) (pd : pdat) (l : list (nat * rec)) : Prop :=
  c' = c /\ map snd l = v_records (d_var fd) /\ pv_more (p_var pd) = v_more (d_var fd).
Definition cut_off (c : Z) (fd : fdat) (c' : Z) (l : list (nat * rec)) : Prop :=
  c' = -2 /\ starts (map snd l) (v_records (d_var fd)) /\ (c = 0 -> map snd l <> v_records (d_var fd)).
Theorem C80_parse : forall f c fd m, mbus_frame_data_parse f fd_zero = Ok (c, fd) ->
  exists c' pd m' l used, data_parse_mem f pd_zero m = Ok (c', pd, m') /\ attempts used m m' /\
    chain m' (pv_record (p_var pd)) l /\ added (map fst l) m m' /\ p_fix pd = d_fix fd /\ p_type pd = d_type fd /\ p_error pd = d_error fd /\
    (12 <= data_size f -> pv_nrecords (p_var pd) = Z.of_nat (length l)) /\
    (if existsb (fun b : bool => b) used then cut_off c fd c' l else parsed c fd c' pd l).
Proof.
  intros f c fd m P. destruct (data_mem f fd_zero c fd pd_zero m P) as (c' & pd & m' & E & (A1 & A2 & A3) & Q); [repeat split|].
  destruct (assigns_record f) eqn:As.
  - destruct Q as (_ & l & used & Q1 & Q2 & Q3 & Q4 & Q5). exists c', pd, m', l, used. split; [exact E|]. split; [exact Q3|]. split; [apply Q1|]. split; [apply (holds_added _ _ _ _ Q1)|]. split; [exact A1|]. split; [exact A2|]. split; [exact A3|]. split; [auto|].
    destruct Q5 as [(-> & Q6 & Q7 & Q8)|(-> & I & k & K & Q6)].
    + destruct (existsb (fun b : bool => b) used) eqn:Ex; [apply existsb_exists in Ex; destruct Ex as (x & I & ->); contradiction|]. split; auto.
    + assert (Ex : existsb (fun b : bool => b) used = true) by (apply existsb_exists; exists true; auto). rewrite Ex. split; [reflexivity|].
      split; [rewrite Q6; exists (skipn k (v_records (d_var fd))); symmetry; apply firstn_skipn|].
      intros ->. destruct K as [K|K]; [|discriminate]. rewrite Q6. intros Eq. apply (f_equal (@length _)) in Eq. rewrite firstn_length in Eq. lia.
  - destruct Q as (-> & -> & Q & _). exists c, pd, m, [], []. split; [exact E|]. split; [reflexivity|]. split; [rewrite Q; constructor|].
    split; [split; [constructor|split; [intros a []|auto]]|]. split; [exact A1|]. split; [exact A2|]. split; [exact A3|]. cbn [existsb]. unfold parsed.
    assert (X : pv_nrecords (p_var pd) = 0 /\ v_records (d_var fd) = [] /\ pv_more (p_var pd) = v_more (d_var fd)).
    { clear - P E As. unfold mbus_frame_data_parse, data_parse_mem, assigns_record in *. destruct (Z.land (control f) 0x40 =? 0); [|injection P as <- <-; injection E as <-; auto].
      destruct (ctrl_info f =? 0x70). { destruct (data_size f >? 0); [destruct (rd (fdata f) 0); [|discriminate]; cbn [bind] in *|]; injection P as <- <-; injection E as <-; auto. }
      destruct (ctrl_info f =? 0x73). { destruct (data_size f =? 0); [injection P as <- <-; injection E as <-; auto|]. change (d_fix fd_zero) with (p_fix pd_zero) in P. destruct (mbus_data_fixed_parse f (p_fix pd_zero)) as [[r df]|]; [|discriminate]. cbn [bind] in *. injection P as <- <-; injection E as <-; auto. }
      destruct (ctrl_info f =? 0x72); [|injection P as <- <-; injection E as <-; auto]. cbn [andb] in As. apply Z.leb_gt in As.
      destruct (data_size f =? 0); [injection P as <- <-; injection E as <-; auto|]. unfold mbus_data_variable_parse, variable_parse_mem in *. destruct (Nat.ltb_spec (Z.to_nat (data_size f)) 12); [|lia]. cbn [bind] in *.
      injection P as <- <-; injection E as <-; auto. }
    destruct X as (X1 & X2 & X3). split; [intros _; exact X1|]. auto.
Qed.
(** Creating an object, parsing into it and releasing it leaves the memory as it was, for every frame, every outcome of the
    parser and every pattern of failures. *)
Theorem C80_balanced : forall f c fd m, mbus_frame_data_parse f fd_zero = Ok (c, fd) ->
  match mbus_frame_data_new m with
  | (None, m1) => same_memory m m1
  | (Some a, m1) => exists c' pd m2 m3, data_parse_mem f pd_zero m1 = Ok (c', pd, m2) /\ mbus_frame_data_free (Some a) pd m2 = Ok m3 /\ same_memory m m3
  end.
Proof.
  intros f c fd m P. unfold mbus_frame_data_new. destruct (malloc CBlock m) as [[a|] m1] eqn:Em; [|apply (malloc_none _ _ _ Em)].
  destruct (data_mem f fd_zero c fd pd_zero m1 P) as (c' & pd & m2 & E & _ & Q); [repeat split|].
  assert (HL : exists l, holds_list m1 m2 (pv_record (p_var pd)) l).
  { destruct (assigns_record f); [destruct Q as (_ & l & used & Q1 & _); eauto|]. destruct Q as (_ & -> & Q & _). rewrite Q. exists []. apply holds_start. }
  destruct HL as (l & HL). destruct (data_free_ok a m m1 m2 pd l Em HL) as (m3 & E3 & S3 & _). eauto 10.
Qed.
(** [mbus_frame_get_secondary_address]: nothing stays allocated, the result is as without shortage unless an allocation
    failed, and never another address. *)
Theorem C80_secondary_address : forall f m o, bytes (fdata f) -> mbus_frame_get_secondary_address f = Ok o ->
  exists o' m' used, secondary_address_mem f m = Ok (o', m') /\ same_memory m m' /\ attempts used m m' /\ (~ In true used -> o' = o) /\ (forall x y, o = Some x -> o' = Some y -> y = x).
Proof.
  intros f m o B H. destruct (secondary_mem f m o B H) as (o' & m' & used & E & S & A & Q). exists o', m', used. split; [exact E|]. split; [exact S|]. split; [exact A|]. destruct Q as [->|(I & Q)].
  - split; congruence.
  - split; [tauto|]. intros x y -> ->. destruct Q; discriminate.
Qed.
(** The rule the caller must keep: an object with a list is not parsed into again without releasing the list. Otherwise the
    first list stays allocated after the object has been released. *)
Theorem C80_parse_again_needs_rule : forall f h its t m a m1 c1 pd1 m2 c2 pd2 m3, var_telegram f h its t -> entries its t <> [] -> plenty m ->
  mbus_frame_data_new m = (Some a, m1) -> data_parse_mem f pd_zero m1 = Ok (c1, pd1, m2) -> data_parse_mem f pd1 m2 = Ok (c2, pd2, m3) ->
  exists m4 b, mbus_frame_data_free (Some a) pd2 m3 = Ok m4 /\ look m b = None /\ look m4 b <> None.
Proof.
  intros f h its t m a m1 c1 pd1 m2 c2 pd2 m3 T Ne Pl N P1 P2. unfold mbus_frame_data_new in N. pose proof (malloc_own _ _ _ N) as (O1 & O2 & O3).
  destruct (malloc_attempts _ _ _ _ N) as (u0 & A0 & _).
  destruct (telegram_mem (fun _ => None) f h its t pd_zero m1 T) as (c' & pd' & m' & l1 & es1 & u1 & E & _ & _ & _ & HL1 & Ms1 & A1 & _ & U1). rewrite P1 in E. injection E as <- <- <-.
  destruct (telegram_mem (fun _ => None) f h its t pd1 m2 T) as (c' & pd' & m' & l2 & es2 & u2 & E & _ & _ & _ & HL2 & Ms2 & A2 & _ & _). rewrite P2 in E. injection E as <- <- <-.
  assert (E1 : es1 = entries its t). { apply U1. intros I. apply Pl. unfold attempts in *. rewrite A0, A1. rewrite !in_app_iff. auto. }
  destruct l1 as [|[b r] l1]. { subst es1. destruct (entries its t); [congruence|discriminate]. }
  destruct (holds_free _ _ _ _ HL2) as (m5 & E5 & S5 & _). cbn [mbus_frame_data_free]. rewrite E5. cbn [bind].
  destruct HL1 as (C1 & B1 & K1 & Len1). assert (Lb : exists r' nx, look m2 b = Some (CRec r' nx)) by (eapply chain_look; [exact C1|left; reflexivity]). destruct Lb as (r' & nx & Lb).
  assert (Bb : (length (m_cells m1) <= b)%nat) by (apply B1; left; reflexivity). pose proof (look_bound _ _ _ O2) as Ba.
  assert (La : look m5 a = Some CBlock). { rewrite S5, K1; [exact O2|]. intros I. apply B1 in I. lia. }
  destruct (free_ok a m5 _ La) as (m6 & E6 & L1 & L2 & _). exists m6, b. split; [exact E6|]. split; [rewrite <- O3 by lia; apply look_over; exact Bb|].
  rewrite L2 by lia. rewrite S5, Lb. discriminate.
Qed.
Print Assumptions C80_parse.
Print Assumptions C80_balanced.
Print Assumptions C80_secondary_address.
Print Assumptions C80_parse_again_needs_rule.
Definition two_its : list item := [Data (mkA 0x01 [] 0x13 [] [] [5]); Data (mkA 0x01 [] 0x13 [] [] [6])].
Definition two_frame : frame := reply (ex_header ++ enc_body two_its None) 0.
Lemma two_telegram : var_telegram two_frame ex_header two_its None.
Proof.
  unfold var_telegram. split; [|split; [reflexivity|split; [|split; [exact I|split; [unfold is_byte; cbn; lia|split; reflexivity]]]]].
  - apply reply_carries; [|unfold is_byte; lia|vm_compute; lia]. vm_compute. repeat constructor; discriminate.
  - repeat (apply Forall_cons || apply Forall_nil); cbn [wf_item]; unfold wf_rec, value_fits, is_byte; cbn;
    repeat match goal with |- _ /\ _ => split end; try lia; try discriminate; try reflexivity;
    try (intros; reflexivity); try (vm_compute; repeat constructor; discriminate); try (intros; discriminate).
Qed.
(** The object is made, the second record is not. *)
Definition ex_code (r : res (Z * pdat * mem)) : option (Z * Z * list (option nat)) :=
  match r with Ok (c, pd, m) => Some (c, pv_nrecords (p_var pd), map (fun o => match o with None => None | Some _ => Some 1%nat end) (m_cells m)) | UB => None end.
Example C80_nonvacuous : ex_code (data_parse_mem two_frame pd_zero (mkM [Some CBlock] [false; true])) = Some (-2, 1, [Some 1%nat; Some 1%nat]) /\
  ex_code (data_parse_mem two_frame pd_zero (mkM [Some CBlock] [])) = Some (0, 2, [Some 1%nat; Some 1%nat; Some 1%nat]).
Proof. split; vm_compute; reflexivity. Qed.

(** ** C81: XML conversion under shortage of memory *)
(** [mbus_frame_xml] on a chain of variable data replies within the limits of C29: either NULL, everything released, and an
    allocation had failed; or a text in one new buffer, nothing else left allocated. The text is the document of the telegrams,
    where from telegrams during whose parsing an allocation failed only the first records are shown: it is the document of
    the whole chain exactly if no allocation failed. *)
Theorem C81_frame_xml : forall stamp, (forall i, stamp_ok (stamp i)) -> forall f fs h its t tels m,
  var_telegram f h its t -> Forall2 (fun f p => var_telegram f (fst (fst p)) (snd (fst p)) (snd p)) fs tels ->
  let ess := entries its t :: map (fun p => entries (snd (fst p)) (snd p)) tels in
  Forall (Forall small_entry) ess -> Z.of_nat (length (concat ess)) + Z.of_nat (length ess) < 10 ^ 9 ->
  exists o m' used, frame_xml_mem stamp f fs m = Ok (o, m') /\ attempts used m m' /\
  match o with
  | None => same_memory m m' /\ In true used
  | Some (text, b) => added [b] m m' /\ exists ess', Forall2 starts ess' ess /\ document stamp h ess' text /\ (ess' = ess <-> ~ In true used)
  end.
Proof. intros. apply frame_xml_shortage; assumption. Qed.
(** [mbus_frame_data_xml]: NULL with nothing changed after a failed allocation, else the whole document in one new buffer. *)
Theorem C81_data_xml : forall stamp, (forall i, stamp_ok (stamp i)) -> forall pd es l m,
  p_type pd = DT_VARIABLE -> bytes (pv_header (p_var pd)) -> length (pv_header (p_var pd)) = 12%nat -> chain m (pv_record (p_var pd)) l -> map snd l = map entry_obj es ->
  Forall wf_entry es -> Forall small_entry es -> Z.of_nat (length es) < 10 ^ 9 ->
  exists o m' used, frame_data_xml_mem stamp pd m = Ok (o, m') /\ attempts used m m' /\
  match o with
  | None => same_memory m m' /\ In true used
  | Some (text, b) => added [b] m m' /\ document stamp (pv_header (p_var pd)) [es] text /\ ~ In true used
  end.
Proof. intros stamp Hst pd es l m. intros. eapply data_xml_shortage; eassumption. Qed.
Theorem C81_data_xml_fixed_error : forall stamp pd m, (p_type pd = DT_ERROR /\ is_byte (p_error pd)) \/ (p_type pd = DT_FIXED /\ fixed_bytes (p_fix pd)) ->
  exists o m' used, frame_data_xml_mem stamp pd m = Ok (o, m') /\ attempts used m m' /\
  match o with
  | None => same_memory m m' /\ In true used
  | Some (text, b) => added [b] m m' /\ ~ In true used /\
      (if p_type pd =? DT_ERROR then error_document (mbus_data_error_lookup (p_error pd)) text else fixed_document (p_fix pd) text)
  end.
Proof.
  intros stamp pd m [[Ty B]|[Ty B]]; unfold frame_data_xml_mem; rewrite Ty.
  - change (DT_ERROR =? DT_ERROR) with true. cbv iota. destruct (error_xml_ok _ B) as (t & E & D & _). rewrite E.
    destruct (text_shortage t m) as (o & m' & used & E1 & A & Q). exists o, m', used. split; [exact E1|]. split; [exact A|]. destruct o as [[text b]|]; [|exact Q]. destruct Q as (Q1 & -> & Q2). auto.
  - change (DT_FIXED =? DT_ERROR) with false. change (DT_FIXED =? DT_FIXED) with true. cbv iota. destruct (fixed_xml_ok _ B) as (t & E & D & _). rewrite E.
    destruct (text_shortage t m) as (o & m' & used & E1 & A & Q). exists o, m', used. split; [exact E1|]. split; [exact A|]. destruct o as [[text b]|]; [|exact Q]. destruct Q as (Q1 & -> & Q2). auto.
Qed.
(** The caller cannot see that records are missing: with memory for one record only, the text returned for a telegram of two
    records is the document of the first. *)
Theorem C81_truncated_undetected : exists m text b m', var_telegram two_frame ex_header two_its None /\
  frame_xml_mem (fun _ => None) two_frame [] m = Ok (Some (text, b), m') /\ document (fun _ => None) ex_header [entries small_its None] text.
Proof.
  assert (S1 : small_entry (EData (mkA 0x01 [] 0x13 [] [] [5]))).
  { cbn [small_entry a_difes a_dif]. split; [cbn; lia|]. split; [vm_compute; reflexivity|]. intros u w Hu Hw. vm_compute in Hu, Hw; apply ok_inj in Hu; apply ok_inj in Hw; subst; vm_compute; lia. }
  destruct (C30_chain_partial (fun _ => None) (fun _ => I) small_frame [] ex_header small_its None [] small_telegram) as (text & hp & E & D & _).
  - constructor.
  - apply Forall_cons; [|apply Forall_nil]. change (entries small_its None) with [EData (mkA 0x01 [] 0x13 [] [] [5])]. apply Forall_cons; [exact S1|apply Forall_nil].
  - vm_compute. reflexivity.
  - exists (mkM [] [false; true]), text, 1%nat, (mkM [None; Some CBlock] []). split; [exact two_telegram|]. split; [|exact D].
    assert (X : match mbus_frame_xml (fun _ => None) small_frame [] with Ok o => match o_text o with Some t => Some t | None => None end | UB => None end = Some text) by (rewrite E; reflexivity).
    assert (Y : frame_xml_mem (fun _ => None) two_frame [] (mkM [] [false; true]) =
      match (match mbus_frame_xml (fun _ => None) small_frame [] with Ok o => match o_text o with Some t => Some t | None => None end | UB => None end) with
      | Some t => Ok (Some (t, 1%nat), mkM [None; Some CBlock] []) | None => UB end) by (vm_compute; reflexivity).
    rewrite X in Y. exact Y.
Qed.
Print Assumptions C81_frame_xml.
Print Assumptions C81_data_xml.
Print Assumptions C81_data_xml_fixed_error.
Print Assumptions C81_truncated_undetected.
(** Two telegrams, without shortage and with the buffer or a record missing. *)
Definition ex_xml (fails : list bool) : option (bool * list bool) :=
  match frame_xml_mem (fun _ => None) two_frame [two_frame] (mkM [] fails) with
  | Ok (o, m) => Some (match o with Some _ => true | None => false end, map (fun c => match c with Some _ => true | None => false end) (m_cells m)) | UB => None end.
Example C81_nonvacuous : ex_xml [] = Some (true, [false; false; true; false; false]) /\ ex_xml [false; false; true] = Some (false, [false; false]) /\
  ex_xml [false; false; false; true] = Some (true, [false; false; true]).
Proof. repeat split; vm_compute; reflexivity. Qed.
