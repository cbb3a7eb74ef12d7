(** Properties C28-C30 and C58: XML escaping, XML documents, multi-telegram conversion. *)
From Coq Require Import String.
From Coq Require Import List.
From Verif Require Import CBase PBase CStr MFrame MCodec MVar MText SFrame SText SCodec SVar SXml MXml PText PXml PXml2 PXml3 PXml4 PropVar.

(** C28: for every string and every buffer of at least one byte the escaped text of a prefix of the string is
    written, terminated, and no byte behind [M]; the prefix is the whole string if the escaped text leaves five
    bytes besides the terminator. *)
Theorem C28_xml_encode :
  forall s junk dst M, c_chars s -> (1 <= M <= length dst)%nat ->
  exists k dst', (k <= length s)%nat /\
    let e := escape_text (firstn k s) in
    mbus_str_xml_encode dst (s ++ 0 :: junk) M = Ok (0, dst') /\
    firstn (length e + 1) dst' = e ++ [0] /\ (length e < M)%nat /\ length dst' = length dst /\
    skipn M dst' = skipn M dst /\ ((length (escape_text s) + 6 <= M)%nat -> k = length s).
Proof. exact xml_encode_spec. Qed.
(** C28: an XML reader gets the text back, control characters as blanks. *)
Theorem C28_unescape :
  forall s, c_chars s -> unescape (escape_text s) = map blank_control s.
Proof. exact escape_unescape. Qed.
(** C28: no markup, no raw quote, no control character, ampersands only in entities. *)
Theorem C28_safe :
  forall s, c_chars s -> safe_text (escape_text s).
Proof. exact escape_safe. Qed.
(** C28 fails for max_len = 0: a terminator is written although no byte is allowed. *)
Theorem C28_zero_size_refuted :
  forall c dst src, exists dst', mbus_str_xml_encode (c :: dst) src 0 = Ok (0, 0 :: dst') /\ mbus_str_xml_encode [] src 0 = UB.
Proof. intros c dst src. exists dst. destruct src; split; reflexivity. Qed.
Print Assumptions C28_xml_encode.
Print Assumptions C28_unescape.
Print Assumptions C28_safe.
Print Assumptions C28_zero_size_refuted.
Example C28_nonvacuous :
  c_chars (cstr "a<b&""c"">") /\
  mbus_str_xml_encode (repeat 7 40) (cstr "a<b&""c"">" ++ [0]) 40
  = Ok (0, cstr "a&lt;b&amp;&quot;c&quot;&gt;" ++ [0] ++ repeat 7 11) /\
  mbus_str_xml_encode (repeat 7 12) (cstr "a<b&""c"">" ++ [0]) 12 = Ok (0, cstr "a&lt;b" ++ [0] ++ repeat 7 5).
Proof. split; [apply Forall_forall; intros x H; vm_compute in H; lia|]. split; vm_compute; reflexivity. Qed.

(** C29 (and C58): the conversion of a single reply. Partial: every record's unit and value text has, escaped, at
    most 661 characters together, so that a record needs less than the 1024 bytes the code keeps free. *)
Theorem C29_document_partial :
  forall stamp, (forall i, stamp_ok (stamp i)) ->
  forall f h its t fd fd', var_telegram f h its t -> Forall small_entry (entries its t) ->
  mbus_frame_data_parse f fd = Ok (0, fd') ->
  exists text, mbus_frame_data_xml stamp fd' = Ok (Some text) /\ document stamp h [entries its t] text.
Proof. exact data_document. Qed.
Print Assumptions C29_document_partial.

(** C29 fails in general: a valid telegram of 246 payload bytes, 35 empty records and one with an 80-character unit
    and an 80-character value made of double quotes, whose document runs past the buffer. *)
Definition of_rec : arec := mkA 0x0D [] 0x7C (repeat 34 80) [] (80 :: repeat 34 80).
Definition of_its : list item := repeat (Data (mkA 0x00 [] 0x13 [] [] [])) 35 ++ [Data of_rec].
Definition of_frame : frame := reply (ex_header ++ enc_body of_its None) 0.
Lemma of_wf : Forall wf_item of_its.
Proof.
  unfold of_its. apply Forall_app. split.
  - apply Forall_forall. intros x H. apply repeat_spec in H. subst x.
    cbn [wf_item]. unfold wf_rec, value_fits, is_byte; cbn;
    repeat match goal with |- _ /\ _ => split end; try lia; try discriminate; try reflexivity;
    try (intros; reflexivity); try (vm_compute; repeat constructor; discriminate); try (intros; discriminate).
  - apply Forall_cons; [|apply Forall_nil].
    cbn [wf_item]. unfold of_rec, wf_rec, value_fits, is_byte; cbn;
    repeat match goal with |- _ /\ _ => split end; try lia; try discriminate; try reflexivity;
    try (intros; reflexivity); try (vm_compute; repeat constructor; discriminate); try (intros; discriminate).
    exists 80, (repeat 34 80). split; [reflexivity|]. vm_compute. auto.
Qed.
Theorem C29_overflow_refuted :
  exists f h its, var_telegram f h its None /\
    (forall fd fd' r, mbus_frame_data_parse f fd = Ok (r, fd') -> r = 0 /\ mbus_frame_data_xml (fun _ => None) fd' = UB) /\
    mbus_frame_xml (fun _ => None) f [] = UB.
Proof.
  exists of_frame, ex_header, of_its.
  assert (T : var_telegram of_frame ex_header of_its None).
  { unfold var_telegram. split; [|split; [reflexivity|split; [exact of_wf|split; [exact I|split; [unfold is_byte; cbn; lia|split; reflexivity]]]]].
    apply reply_carries; [|unfold is_byte; lia|vm_compute; lia]. vm_compute. repeat constructor; discriminate. }
  split; [exact T|]. split; [|vm_compute; reflexivity].
  intros fd fd' r H. rewrite (telegram_parse of_frame ex_header of_its None fd T) in H. apply ok_inj in H. injection H as H1 H2. split; [congruence|].
  subst fd'. unfold mbus_frame_data_xml. cbn [d_type d_var]. vm_compute. reflexivity.
Qed.
Print Assumptions C29_overflow_refuted.

(** C30 (and C29, C58): conversion of a chain of telegrams. Partial: all telegrams are variable data replies within
    the size limits of C29. Every record list allocated is freed (a second release or an access after it would be
    undefined), none is left, and the document is that of the property. *)
Theorem C30_chain_partial :
  forall stamp, (forall i, stamp_ok (stamp i)) ->
  forall f fs h its t tels,
  var_telegram f h its t -> Forall2 (fun f p => var_telegram f (fst (fst p)) (snd (fst p)) (snd p)) fs tels ->
  let ess := entries its t :: map (fun p => entries (snd (fst p)) (snd p)) tels in
  Forall (Forall small_entry) ess -> Z.of_nat (length (concat ess)) + Z.of_nat (length ess) < 10 ^ 9 ->
  exists text hp, mbus_frame_xml stamp f fs = Ok (mkOut (Some text) hp false) /\ document stamp h ess text /\
    Forall (eq None) hp /\ length hp = length (filter (fun es => match es with [] => false | _ => true end) ess).
Proof. exact chain_document. Qed.
Print Assumptions C30_chain_partial.

(** C30 fails for mixed chains: a variable data reply with a record followed by an application error reply. *)
Definition small_its : list item := [Data (mkA 0x01 [] 0x13 [] [] [5])].
Definition small_frame : frame := reply (ex_header ++ enc_body small_its None) 0.
Definition error_frame : frame := mkF 0x68 4 4 0x68 0x08 1 0x70 0 0x16 (3 :: repeat 0 251) 1 4 0.
Lemma small_telegram : var_telegram small_frame ex_header small_its None.
Proof.
  unfold var_telegram. split; [|split; [reflexivity|split; [|split; [exact I|split; [unfold is_byte; cbn; lia|split; reflexivity]]]]].
  - apply reply_carries; [|unfold is_byte; lia|vm_compute; lia]. vm_compute. repeat constructor; discriminate.
  - apply Forall_cons; [|apply Forall_nil]. cbn [wf_item]. unfold wf_rec, value_fits, is_byte; cbn;
    repeat match goal with |- _ /\ _ => split end; try lia; try discriminate; try reflexivity;
    try (intros; reflexivity); try (vm_compute; repeat constructor; discriminate); try (intros; discriminate).
Qed.
Theorem C30_dangling_refuted :
  exists f g h its, var_telegram f h its None /\
    (forall fd, mbus_frame_data_parse g fd = Ok (0, mkFD (d_var fd) (d_fix fd) DT_ERROR 3)) /\
    mbus_frame_xml (fun _ => None) f [g] = UB.
Proof.
  exists small_frame, error_frame, ex_header, small_its. split; [exact small_telegram|]. split.
  - intros [v x ty e]. vm_compute. reflexivity.
  - vm_compute. reflexivity.
Qed.
(** A telegram with a broken record in the chain: the result is NULL, the records read before the fault and the
    document buffer are never freed. *)
Definition broken_frame : frame := reply (ex_header ++ enc_body small_its None ++ [0x04; 0x13; 1]) 0.
Theorem C30_leak_refuted :
  exists f g h its hp rs, var_telegram f h its None /\
    mbus_frame_xml (fun _ => None) f [g] = Ok (mkOut None hp true) /\ In (Some rs) hp /\ rs <> [].
Proof.
  exists small_frame, broken_frame, ex_header, small_its, [None; Some [obj (mkA 0x01 [] 0x13 [] [] [5])]], [obj (mkA 0x01 [] 0x13 [] [] [5])].
  split; [exact small_telegram|]. split; [vm_compute; reflexivity|]. split; [right; left; reflexivity|discriminate].
Qed.
Print Assumptions C30_dangling_refuted.
Print Assumptions C30_leak_refuted.

(** Two telegrams within the limits, and their document. *)
Example C30_nonvacuous :
  Forall small_entry (entries small_its None) /\ Forall small_entry (entries small_its (Some (true, [1; 2]))) /\
  exists text, mbus_frame_xml (fun _ => None) small_frame [small_frame] = Ok (mkOut (Some text) [None; None] false).
Proof.
  assert (S1 : small_entry (EData (mkA 0x01 [] 0x13 [] [] [5]))).
  { cbn [small_entry a_difes a_dif]. split; [cbn; lia|]. split; [vm_compute; reflexivity|]. intros u v Hu Hv.
    vm_compute in Hu, Hv. apply ok_inj in Hu. apply ok_inj in Hv. subst. vm_compute. lia. }
  split; [apply Forall_cons; [exact S1|apply Forall_nil]|].
  split; [apply Forall_cons; [exact S1|apply Forall_cons; [exact I|apply Forall_nil]]|].
  match goal with |- exists t, ?x = _ =>
    let y := eval vm_compute in (match x with Ok o => match o_text o with Some t => t | None => [] end | UB => [] end) in exists y end.
  vm_compute. reflexivity.
Qed.

(** C58: application errors and fixed data replies. *)
Theorem C58_error_document :
  forall stamp e fd, is_byte e -> d_type fd = DT_ERROR -> d_error fd = e ->
  exists text, mbus_frame_data_xml stamp fd = Ok (Some text) /\ error_document (mbus_data_error_lookup e) text /\ (length text < 8 * 1024)%nat.
Proof.
  intros stamp e fd He Ht <-. unfold mbus_frame_data_xml. rewrite Ht. change (DT_ERROR =? DT_ERROR) with true. cbv iota.
  destruct (error_xml_ok (d_error fd) He) as (t & E & D & L). rewrite E. exists t. split; [reflexivity|]. split; [assumption|lia].
Qed.
Theorem C58_fixed_document :
  forall stamp fd, d_type fd = DT_FIXED -> fixed_bytes (d_fix fd) ->
  exists text, mbus_frame_data_xml stamp fd = Ok (Some text) /\ fixed_document (d_fix fd) text /\ (length text < 8 * 1024)%nat.
Proof.
  intros stamp fd Ht Hb. unfold mbus_frame_data_xml. rewrite Ht. change (DT_FIXED =? DT_ERROR) with false. change (DT_FIXED =? DT_FIXED) with true. cbv iota.
  destruct (fixed_xml_ok (d_fix fd) Hb) as (t & E & D & L). rewrite E. exists t. split; [reflexivity|]. split; assumption.
Qed.
Print Assumptions C58_error_document.
Print Assumptions C58_fixed_document.
Example C58_nonvacuous :
  fixed_bytes (mkFix [0x78; 0x56; 0x34; 0x12] 10 0x80 0xE9 0x7E [1; 0; 0; 0] [0x35; 1; 0; 0]) /\
  mbus_data_error_xml 3 = Ok (XML_PI ++ cstr "<MBusData>" ++ [10; 10] ++ cstr "    <SlaveInformation>" ++ [10] ++
    cstr "        <Error>Too many records</Error>" ++ [10] ++ cstr "    </SlaveInformation>" ++ [10; 10] ++ cstr "</MBusData>" ++ [10]).
Proof.
  split; [|vm_compute; reflexivity]. unfold fixed_bytes. cbn.
  repeat split; try (repeat constructor; unfold is_byte; lia); unfold is_byte; lia.
Qed.
