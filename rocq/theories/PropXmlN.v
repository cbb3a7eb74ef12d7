(** Theorems: normalised XML documents (C61). *)
From Coq Require Import String.
From Coq Require Import List.
From Verif Require Import CBase PBase CStr MFrame MCodec MVar MText MXml MUnit MXmlN SText SCodec SVar SXml SUnit SNorm SXmlN.
From Verif Require Import PCodec PCodec2 PVar PVar2 PVar3 PropVar PXml PXml2 PText PText2 PText3 PXml3 PXml4 PropXml PropText PropUnit PDouble PNorm PropNorm PXmlN.

(** C61: the document of a variable data reply: well-formed, slave information, one element for each record of the
    telegram in order, with the function, storage number, tariff, device, unit, quantity and value that
    [mbus_parse_variable_record] delivers for it (a refused record gives an empty element). No byte outside the buffer
    is touched, and nothing is leaked except by records with a reserved unit code. Partial: size limits of [small_norm]. *)
Theorem C61_document_partial :
  forall f h its t fd fd', var_telegram f h its t -> Forall small_norm (entries its t) -> mbus_frame_data_parse f fd = Ok (0, fd') ->
  exists text lost, mbus_frame_data_xml_normalized fd' = Ok (Some text, lost) /\ norm_document norm_entry h (entries its t) text /\
    (lost <= length (filter reserved_unit (entries its t)))%nat.
Proof.
  intros f h its t fd fd' T Sm E. apply (norm_document_ok norm_entry f h its t fd fd' T Sm); [|assumption].
  apply Forall_forall. intros e _ o lost ns Ep En. exists o, lost. split; [exact Ep|exact En].
Qed.
Print Assumptions C61_document_partial.

(** C61: ... and these elements say what the bytes of the record mean. *)
Definition meaningful (e : entry) : Prop :=
  match e with
  | EData a => exists m c, means a c /\ unit_of a = Some m /\ ~ wrong_code (a_vif a) (nth 0 (a_vifes a) 0) /\ (has_text (a_vif a) = true -> c_chars (a_text a))
  | EBlock _ _ => True
  end.
Lemma nodes_meaning e o lost ns : wf_entry e -> small_norm e -> meaningful e -> mbus_parse_variable_record (entry_obj e) = Ok (o, lost) ->
  match o with Some n => norm_nodes n ns | None => ns = [] end -> meaning_entry e ns.
Proof.
  intros W Sm M E En. destruct e as [a|more b]; cbn [entry_obj wf_entry small_norm meaningful meaning_entry] in *.
  - destruct Sm as (S1 & S2 & _). destruct M as (m & c & Mc & U & NW & C).
    destruct (C60_record_partial a m c W Mc U NW C S1 S2) as (n & E' & D & V). rewrite E in E'. apply ok_inj in E'. injection E' as -> _.
    destruct D as (D1 & D2 & D3 & D4 & D5 & D6). destruct En as (st & td & v & N1 & N2 & N3 & ->).
    rewrite D1, D2, D3. cbn [text_of]. rewrite D4 in N1. exists m, c, st, td, v. split; [assumption|]. split; [assumption|]. split; [assumption|]. split; [|split; [|reflexivity]].
    + destruct c as [x|s].
      * destruct V as (y & V1 & V2). rewrite V1 in N2. exists y. split; [assumption|exact N2].
      * destruct V as (size & V1 & _). rewrite V1 in N2. exact N2.
    + rewrite D5, D6 in N3. destruct (a_difes a) as [|d0 ds]; [exact N3|].
      pose proof (tariff_range (d0 :: ds) ltac:(lia)) as TR. destruct (Z.ltb_spec (tariff (d0 :: ds)) 0); [lia|exact N3].
  - destruct W as [Lb Hb]. destruct (C60_block more b Lb Hb) as (n & size & E' & V & F & U & Q & S & T & D). rewrite E in E'. apply ok_inj in E'. injection E' as -> _.
    destruct En as (st & td & v & N1 & N2 & N3 & ->). rewrite F, U, Q. rewrite V in N2. rewrite T in N3. rewrite S in N1. cbn [shows_value] in N2. change (-1 <? 0) with true in N3. cbv iota in N3. subst td v.
    exists st. split; [assumption|]. cbn [text_of app]. rewrite (plain_shown (hex_text (rev b))) by (apply hex_text_plain, Forall_rev; assumption). reflexivity.
Qed.
Theorem C61_meaning_partial :
  forall f h its t fd fd', var_telegram f h its t -> Forall small_norm (entries its t) -> Forall meaningful (entries its t) ->
  mbus_frame_data_parse f fd = Ok (0, fd') ->
  exists text, mbus_frame_data_xml_normalized fd' = Ok (Some text, 0%nat) /\ norm_document meaning_entry h (entries its t) text.
Proof.
  intros f h its t fd fd' T Sm M E. assert (W : Forall wf_entry (entries its t)) by (apply entries_wf; apply T).
  destruct (norm_document_ok meaning_entry f h its t fd fd' T Sm) as (text & lost & E1 & D & L); [|assumption|].
  - rewrite Forall_forall in *. intros e He o lost ns. apply nodes_meaning; auto.
  - exists text. split; [|assumption]. assert (N : filter reserved_unit (entries its t) = []).
    { clear - M. induction M as [|e es H _ IH]; [reflexivity|]. cbn [filter]. rewrite IH. destruct e as [a|]; [|reflexivity]. cbn [reserved_unit]. cbn [meaningful] in H.
      destruct H as (m & c & _ & U & _). destruct (Z.eqb_spec (a_vif a) 0x7B) as [X|X].
      { exfalso. unfold unit_of in U. rewrite X in U. discriminate U. }
      destruct (Z.eqb_spec (a_vif a) 0x7D) as [Y|Y]; [|reflexivity]. exfalso. unfold unit_of in U. rewrite Y in U. discriminate U. }
    rewrite N in L. cbn [length] in L. assert (lost = 0%nat) by lia. subst lost. exact E1.
Qed.
Print Assumptions C61_meaning_partial.

(** C61 fails for application errors (no document) and for fixed data (the document is not a normalised one: counter
    values and units as sent). *)
Theorem C61_error_refuted : forall fd, d_type fd = DT_ERROR -> mbus_frame_data_xml_normalized fd = Ok (None, 0%nat).
Proof. intros fd H. unfold mbus_frame_data_xml_normalized. rewrite H. reflexivity. Qed.
Theorem C61_fixed_refuted :
  forall fd, d_type fd = DT_FIXED -> fixed_bytes (d_fix fd) ->
  exists text, mbus_frame_data_xml_normalized fd = Ok (Some text, 0%nat) /\ fixed_document (d_fix fd) text.
Proof.
  intros fd H B. unfold mbus_frame_data_xml_normalized. rewrite H. change (DT_FIXED =? DT_FIXED) with true. cbv iota.
  destruct (fixed_xml_ok (d_fix fd) B) as (t & E & D & _). rewrite E. exists t. split; [reflexivity|assumption].
Qed.
Print Assumptions C61_fixed_refuted.

(** C61 fails in general: a valid telegram whose document runs past the buffer. *)
Definition ofn_its : list item := repeat (Data (mkA 0x00 [] 0x13 [] [] [])) 31 ++ [Data of_rec].
Definition ofn_frame : frame := reply (ex_header ++ enc_body ofn_its None) 0.
Lemma ofn_wf : Forall wf_item ofn_its.
Proof.
  pose proof of_wf as H. unfold of_its in H. apply Forall_app in H. destruct H as [H1 H2]. unfold ofn_its. apply Forall_app. split; [|assumption].
  rewrite Forall_forall in H1. apply Forall_forall. intros x Hx. apply H1. apply repeat_spec in Hx. subst x. left. reflexivity.
Qed.
Theorem C61_overflow_refuted :
  exists f h its, var_telegram f h its None /\
    forall fd fd' r, mbus_frame_data_parse f fd = Ok (r, fd') -> r = 0 /\ mbus_frame_data_xml_normalized fd' = UB.
Proof.
  exists ofn_frame, ex_header, ofn_its.
  assert (T : var_telegram ofn_frame ex_header ofn_its None).
  { unfold var_telegram. split; [|split; [reflexivity|split; [exact ofn_wf|split; [exact I|split; [unfold is_byte; cbn; lia|split; reflexivity]]]]].
    apply reply_carries; [|unfold is_byte; lia|vm_compute; lia]. vm_compute. repeat constructor; discriminate. }
  split; [exact T|]. intros fd fd' r H. rewrite (telegram_parse ofn_frame ex_header ofn_its None fd T) in H. apply ok_inj in H. injection H as H1 H2. split; [congruence|].
  subst fd'. unfold mbus_frame_data_xml_normalized. cbn [d_type d_var]. vm_compute. reflexivity.
Qed.
Print Assumptions C61_overflow_refuted.

(** A telegram with a volume of 5 l and a block of manufacturer data meets the conditions; its document. *)
Example C61_nonvacuous :
  Forall small_norm (entries small_its (Some (true, [1; 2]))) /\ Forall meaningful (entries small_its (Some (true, [1; 2]))) /\
  exists text, mbus_frame_data_xml_normalized (mkFD (dvar_of ex_header small_its (Some (true, [1; 2]))) (mkFix [] 0 0 0 0 [] []) DT_VARIABLE 0) = Ok (Some text, 0%nat) /\
    exists a b, text = a ++ cstr "<Unit>m^3</Unit>" ++ [10] ++ cstr "        <Quantity>Volume</Quantity>" ++ [10] ++ cstr "        <Value>0.005000</Value>" ++ b.
Proof.
  split; [|split].
  - apply Forall_cons; [|apply Forall_cons; [exact I|apply Forall_nil]]. cbn [small_norm a_difes a_dif]. split; [cbn; lia|]. split; [vm_compute; reflexivity|].
    intros n lost E. vm_compute in E. apply ok_inj in E. injection E as <- _. vm_compute. lia.
  - apply Forall_cons; [|apply Forall_cons; [exact I|apply Forall_nil]]. cbn [meaningful].
    exists (mkM (1 # 1000) (cstr "m^3") (cstr "Volume")), (Number (Num (inject_Z 5))). split; [|split; [reflexivity|split]].
    + apply (me_int (mkA 0x01 [] 0x13 [] [] [5])). left. reflexivity.
    + unfold wrong_code. cbn. intuition discriminate.
    + discriminate.
  - match goal with |- exists t, ?x = _ /\ _ => let y := eval vm_compute in (match x with Ok (Some t, _) => t | _ => [] end) in exists y end. split; [vm_compute; reflexivity|].
    match goal with |- exists a b, ?l = _ => exists (firstn 493 l), (skipn 577 l) end. vm_compute. reflexivity.
Qed.
