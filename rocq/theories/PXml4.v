(** Proofs: documents of whole telegrams and of chains of telegrams. *)
From Coq Require Import String.
From Coq Require Import List.
From Verif Require Import CBase PBase CStr MFrame MCodec MVar MText MXml SText SCodec SVar SXml PCodec PCodec2 PVar PVar2 PVar3 PropVar PXml PXml2 PText PText2 PText3 PXml3.

Lemma entries_objs its t : map entry_obj (entries its t) = objs its ++ objs_tail t.
Proof.
  unfold entries, objs. rewrite map_app. f_equal; [|destruct t as [[m b]|]; reflexivity].
  induction its as [|[|a] its IH]; [reflexivity|exact IH|]. cbn [flat_map entry_item objs_item app map entry_obj]. rewrite IH. reflexivity.
Qed.
Lemma entries_wf its t : Forall wf_item its -> wf_tail t -> Forall wf_entry (entries its t).
Proof.
  intros W Wt. unfold entries. apply Forall_app. split.
  - induction W as [|[|a] its W _ IH]; [constructor|exact IH|]. cbn [flat_map entry_item app]. constructor; [exact W|exact IH].
  - destruct t as [[m b]|]; [|constructor]. constructor; [exact Wt|constructor].
Qed.

Section Stamp.
  Variable stamp : Z -> option (list Z).
  Hypothesis Hst : forall i, stamp_ok (stamp i).

  Lemma entries_render : forall es i fc, Forall wf_entry es -> Forall small_entry es -> 0 <= i ->
    i + Z.of_nat (length es) < 10 ^ 9 -> -1 <= fc < 10 ^ 9 ->
    exists ts ns, texts_ok stamp (map entry_obj es) i fc ts /\ entries_nodes stamp es i fc ns /\ renders (concat ts) ns.
  Proof.
    induction es as [|e es IH]; intros i fc W Sm Hi Hn Hf.
    - exists [], []. split; [exact I|]. split; [reflexivity|apply renders_nil].
    - inversion_clear W as [|? ? W1 W2]. inversion_clear Sm as [|? ? S1 S2]. cbn [length] in Hn.
      destruct (record_renders e i fc (stamp i) W1 S1 ltac:(lia) Hf (Hst i)) as (t & ns1 & n & E & L & N & En & Rn & R).
      destruct (IH (i + 1) fc W2 S2 ltac:(lia) ltac:(lia) Hf) as (ts & ns & T & En2 & R2).
      exists (t :: ts), (n :: ns). split; [cbn [map texts_ok]; auto|]. split.
      + cbn [entries_nodes]. exists n, ns1, ns. auto.
      + cbn [concat]. apply (renders_app t [n] (concat ts) ns R R2).
  Qed.

  Lemma telegrams_render : forall tels i fc, Forall (Forall wf_entry) tels -> Forall (Forall small_entry) tels -> 0 <= i ->
    i + Z.of_nat (length (concat tels)) < 10 ^ 9 -> -1 <= fc -> fc + Z.of_nat (length tels) < 10 ^ 9 ->
    exists tss ns, chain_texts stamp (map (map entry_obj) tels) i fc tss /\ telegrams_nodes stamp tels i fc ns /\
      renders (concat (map (@concat Z) tss)) ns.
  Proof.
    induction tels as [|es tels IH]; intros i fc W Sm Hi Hn Hf Hf2.
    - exists [], []. split; [exact I|]. split; [reflexivity|apply renders_nil].
    - inversion_clear W as [|? ? W1 W2]. inversion_clear Sm as [|? ? S1 S2]. cbn [length concat] in Hn, Hf2. rewrite app_length in Hn.
      destruct (entries_render es i fc W1 S1 ltac:(lia) ltac:(lia) ltac:(lia)) as (ts & ns & T & En & R).
      destruct (IH (i + Z.of_nat (length es)) (fc + 1) W2 S2 ltac:(lia) ltac:(lia) ltac:(lia) ltac:(lia)) as (tss & ns2 & T2 & En2 & R2).
      exists (ts :: tss), (ns ++ ns2). split; [|split].
      + cbn [map chain_texts]. rewrite map_length. auto.
      + cbn [telegrams_nodes]. exists ns, ns2. auto.
      + cbn [map concat]. apply renders_app; assumption.
  Qed.

  Lemma document_render h x slave tels tss recs : slave_node h slave -> renders x [slave] ->
    telegrams_nodes stamp tels 0 (match tels with [_] => -1 | _ => 0 end) recs ->
    renders (concat (map (@concat Z) tss)) recs ->
    document stamp h tels (XML_PI ++ XML_OPEN ++ x ++ concat (map (@concat Z) tss) ++ XML_CLOSE).
  Proof.
    intros H1 H2 H3 H4. exists (XML_OPEN ++ x ++ concat (map (@concat Z) tss) ++ XML_CLOSE), slave, recs.
    split; [unfold XML_PI; rewrite <- app_assoc; reflexivity|]. split; [|auto].
    set (c := concat (map (@concat Z) tss)) in *.
    assert (E : XML_OPEN ++ x ++ c ++ XML_CLOSE = [] ++ [60] ++ cstr "MBusData" ++ attrs_text [] ++ [62] ++ (([10; 10] ++ x) ++ c) ++ [60; 47] ++ cstr "MBusData" ++ [62] ++ [10]).
    { rewrite <- !app_assoc. reflexivity. }
    rewrite E. apply rn_elem.
    - constructor.
    - apply nameb_ok. reflexivity.
    - constructor.
    - apply (renders_app _ [slave] c recs); [|assumption]. apply renders_ws; [apply blanksb_ok; reflexivity|assumption].
    - apply rn_nil. apply blanksb_ok. reflexivity.
  Qed.

  Lemma telegram_parse f h its t fd : var_telegram f h its t ->
    mbus_frame_data_parse f fd = Ok (0, mkFD (dvar_of h its t) (d_fix fd) DT_VARIABLE (d_error fd)).
  Proof.
    intros (Hc & Hl & W & Wt & Bc & Hd & Hci).
    destruct (C27_dispatch f _ fd Hc Bc) as (_ & _ & _ & H & _). cbv zeta in H.
    rewrite H; [|assumption|assumption|destruct h; [discriminate|discriminate]].
    rewrite (parse_encoded f h its t (d_var fd) Hc Hl W Wt). reflexivity.
  Qed.
  Lemma telegram_reply f h its t : var_telegram f h its t -> var_reply f (map entry_obj (entries its t)).
  Proof.
    intros T. split.
    - destruct T as ((HL & HB & Hs & Hf & Hle) & Hl & W & Wt & Bc & Hd & Hci). unfold assigns_record.
      rewrite PCodec.land_40 by assumption. rewrite Hd, Hci, Hs, app_length, Hl.
      change (64 * 0 =? 0) with true. cbn [andb Z.eqb Pos.eqb]. lia.
    - intros fd. exists (dvar_of h its t). split; [apply telegram_parse; assumption|]. symmetry. apply entries_objs.
  Qed.
  Lemma telegram_header f h its t : var_telegram f h its t ->
    forall fd fd', mbus_frame_data_parse f fd = Ok (0, fd') -> v_header (d_var fd') = h.
  Proof. intros T fd fd' E. rewrite (telegram_parse f h its t fd T) in E. apply ok_inj in E. inversion E. reflexivity. Qed.
  Lemma telegram_hbytes f h its t : var_telegram f h its t -> bytes h.
  Proof.
    intros ((HL & HB & Hs & Hf & Hle) & _). assert (B : bytes (h ++ enc_body its t)) by (rewrite <- Hf; apply bytes_firstn; assumption).
    apply bytes_app in B. tauto.
  Qed.

  Lemma chain_document f fs h its t tels :
    var_telegram f h its t -> Forall2 (fun f p => var_telegram f (fst (fst p)) (snd (fst p)) (snd p)) fs tels ->
    let ess := entries its t :: map (fun p => entries (snd (fst p)) (snd p)) tels in
    Forall (Forall small_entry) ess -> Z.of_nat (length (concat ess)) + Z.of_nat (length ess) < 10 ^ 9 ->
    exists text hp, mbus_frame_xml stamp f fs = Ok (mkOut (Some text) hp false) /\ document stamp h ess text /\
      Forall (eq None) hp /\ length hp = length (filter (fun es => match es with [] => false | _ => true end) ess).
  Proof.
    intros T HF ess Sm Hn.
    assert (W : Forall (Forall wf_entry) ess).
    { constructor; [apply entries_wf; apply T|]. clear - HF Hst. induction HF as [|g p fs tels H _ IH]; [constructor|]. cbn [map].
      constructor; [apply entries_wf; apply H|assumption]. }
    destruct (header_renders h (telegram_hbytes f h its t T)) as (x & slave & Hx & Hs & Rx). { apply T. }
    destruct (telegrams_render ess 0 (match fs with [] => -1 | _ => 0 end) W Sm) as (tss & recs & CT & TN & R).
    { lia. } { lia. } { destruct fs; lia. } { destruct fs; lia. }
    assert (HF2 : Forall2 var_reply fs (map (map entry_obj) (map (fun p => entries (snd (fst p)) (snd p)) tels))).
    { clear - HF Hst. induction HF as [|g p fs tels H _ IH]; [constructor|]. cbn [map]. constructor; [|assumption].
      apply (telegram_reply g (fst (fst p))). assumption. }
    destruct (frame_xml_ok stamp f fs h x (map entry_obj (entries its t)) _ tss (telegram_reply f h its t T)
      (telegram_header f h its t T) HF2 Hx CT) as (hp & E & N & L).
    exists (XML_PI ++ XML_OPEN ++ x ++ concat (map (@concat Z) tss) ++ XML_CLOSE), hp.
    split; [exact E|]. split; [|split; [assumption|]].
    - apply (document_render h x slave ess tss recs); try assumption.
      assert (Ef : match ess with [_] => -1 | _ => 0 end = match fs with [] => -1 | _ => 0 end) by (unfold ess; destruct HF; reflexivity).
      rewrite Ef. exact TN.
    - rewrite L. change (map entry_obj (entries its t) :: map (map entry_obj) (map (fun p => entries (snd (fst p)) (snd p)) tels))
        with (map (map entry_obj) ess). clear.
      induction ess as [|[|e es] ess IH]; [reflexivity|exact IH|]. cbn [map filter nonempty]. cbn [length]. f_equal. exact IH.
  Qed.

  Lemma data_document f h its t fd fd' : var_telegram f h its t -> Forall small_entry (entries its t) ->
    mbus_frame_data_parse f fd = Ok (0, fd') ->
    exists text, mbus_frame_data_xml stamp fd' = Ok (Some text) /\ document stamp h [entries its t] text.
  Proof.
    intros T Sm E. rewrite (telegram_parse f h its t fd T) in E. apply ok_inj in E. inversion E. clear E H0.
    destruct (header_renders h (telegram_hbytes f h its t T)) as (x & slave & Hx & Hs & Rx). { apply T. }
    assert (Hcount : Z.of_nat (length (entries its t)) <= 300).
    { destruct T as (Hc & Hl & W & Wt & _). destruct Hc as (_ & _ & _ & _ & Hle). rewrite app_length in Hle.
      unfold entries, enc_body in *. rewrite app_length in *. unfold DATA_LEN in Hle.
      assert (A : (length (flat_map entry_item its) <= length (flat_map enc_item its))%nat).
      { clear. induction its as [|[|a] its IH]; cbn [flat_map entry_item enc_item app length]; [lia|lia|].
        unfold enc_rec. cbn [app length]. rewrite !app_length. lia. }
      assert (B : (length (entry_tail t) <= 1)%nat) by (destruct t as [[]|]; cbn; lia). lia. }
    destruct (telegrams_render [entries its t] 0 (-1)) as (tss & recs & CT & TN & R).
    { constructor; [apply entries_wf; apply T|constructor]. } { constructor; [assumption|constructor]. }
    { lia. } { cbn [concat]. rewrite app_nil_r. lia. } { lia. } { cbn. lia. }
    destruct tss as [|ts [|]]; try (cbn in CT; tauto). cbn [map chain_texts] in CT. destruct CT as [CT _].
    exists (XML_PI ++ XML_OPEN ++ x ++ concat (map (@concat Z) [ts]) ++ XML_CLOSE). split.
    - unfold mbus_frame_data_xml. cbn [d_type d_var].
      change (DT_VARIABLE =? DT_ERROR) with false. change (DT_VARIABLE =? DT_FIXED) with false. change (DT_VARIABLE =? DT_VARIABLE) with true. cbv iota.
      rewrite (variable_xml_ok stamp (dvar_of h its t) x ts Hx). { cbn [bind map concat]. rewrite app_nil_r. reflexivity. }
      unfold dvar_of. cbn [v_records]. rewrite <- entries_objs. assumption.
    - apply (document_render h x slave [entries its t] [ts] recs); assumption.
  Qed.
End Stamp.

(** ** Error and fixed replies *)
Lemma error_xml_ok e : is_byte e ->
  exists text, mbus_data_error_xml e = Ok text /\ error_document (mbus_data_error_lookup e) text /\ (length text <= 1000)%nat.
Proof.
  intros He. pose proof (error_ctext e He) as C. unfold mbus_data_error_xml. set (tx := mbus_data_error_lookup e) in *.
  rewrite (enc_small 256 40 tx C) by lia. cbn [bind]. eexists. split; [reflexivity|]. split.
  - exists (XML_OPEN ++ cstr "    <SlaveInformation>" ++ nl ++ cstr "        <Error>" ++ escape_text tx ++ cstr "</Error>" ++ nl ++
      cstr "    </SlaveInformation>" ++ nl ++ nl ++ XML_CLOSE).
    split; [unfold XML_PI; rewrite <- app_assoc; reflexivity|].
    set (inner2 := nl ++ cstr "        <Error>" ++ escape_text tx ++ cstr "</Error>" ++ nl ++ cstr "    ").
    set (inner1 := [10; 10] ++ cstr "    " ++ [60] ++ cstr "SlaveInformation" ++ attrs_text [] ++ [62] ++ inner2 ++ [60; 47] ++ cstr "SlaveInformation" ++ [62] ++ (nl ++ nl)).
    match goal with |- renders ?l _ => assert (E : l = [] ++ [60] ++ cstr "MBusData" ++ attrs_text [] ++ [62] ++ inner1 ++ [60; 47] ++ cstr "MBusData" ++ [62] ++ nl) end.
    { unfold inner1, inner2. rewrite <- !app_assoc. reflexivity. }
    rewrite E. apply rn_elem; [constructor|apply nameb_ok; reflexivity|constructor| |apply rn_nil, blanksb_ok; reflexivity].
    unfold inner1. apply renders_ws; [apply blanksb_ok; reflexivity|].
    apply rn_elem; [apply blanksb_ok; reflexivity|apply nameb_ok; reflexivity|constructor| |apply rn_nil, blanksb_ok; reflexivity].
    unfold inner2. apply renders_ws; [apply blanksb_ok; reflexivity|].
    apply (line_shown (cstr "        ") "Error"); [reflexivity|reflexivity|apply C|]. apply rn_nil, blanksb_ok. reflexivity.
  - pose proof (escape_ctext 40 tx C). unfold XML_PI, XML_OPEN, XML_CLOSE. lens. cbn [length]. lia.
Qed.

Lemma land_80_ltb s : is_byte s -> (Z.land s 0x80 =? 0x00) = (s <? 128).
Proof. intros H. apply eqb_prop. revert s H. apply byte_cases. vm_compute. reflexivity. Qed.
Lemma counter_ok (id : string) status type val : is_byte status -> is_byte type -> bytes val -> length val = 4%nat ->
  (id = "0"%string \/ id = "1"%string) ->
  exists t v, fixed_counter id status type val = Ok t /\ counter_text status val v /\ (length t <= 1000)%nat /\
    renders t [Elem (cstr "DataRecord") [(cstr "id", cstr id)]
      [leaf "Function" (shown (mbus_data_fixed_function status)); leaf "Unit" (shown (mbus_data_fixed_unit type)); leaf "Value" v]].
Proof.
  intros Hs Ht Hb Hl Hid. unfold fixed_counter.
  pose proof (fixed_function_ctext status) as Cf. pose proof (fixed_unit_ctext type Ht) as Cu.
  set (fu := mbus_data_fixed_function status) in *. set (un := mbus_data_fixed_unit type) in *.
  rewrite (enc_small 256 40 fu), (enc_small 256 40 un) by (try assumption; lia). cbn [bind].
  assert (Hle : 0 <= le val < 256 ^ 4). { pose proof (le_bounds val Hb) as B. rewrite Hl in B. exact B. }
  assert (Hv : firstn 4 val = val) by (apply firstn_all2; lia).
  assert (V : exists v, (if Z.land status 0x80 =? 0x00
             then let* n := mbus_data_bcd_decode_hex val 4 in Ok (fmt_X n)
             else let* (_, n) := mbus_data_int_decode val 4 in Ok (fmt_d n)) = Ok v /\ counter_text status val v /\ short_plain v).
  { unfold counter_text. rewrite land_80_ltb by assumption. destruct (status <? 128).
    - rewrite bcd_hex_spec by (try assumption; lia). cbn [bind]. rewrite Hv. eexists. split; [reflexivity|].
      split; [apply hexadecimal_fmt_X; lia|]. apply small_hex. change (256 ^ 4) with 4294967296 in Hle.
      change (256 ^ 8) with 18446744073709551616. lia.
    - rewrite int_decode_spec by (try assumption; lia). cbn [bind]. rewrite Hv. eexists. split; [reflexivity|].
      split; [apply decimal_fmt_d|]. apply small_num. pose proof (twos_abs 4 (le val) ltac:(lia) Hle).
      change (256 ^ Z.of_nat 4) with 4294967296 in *. change (256 ^ 8) with 18446744073709551616. lia. }
  destruct V as (v & Ev & Cv & Pv & Lv). rewrite Ev. cbn [bind]. eexists. exists v. split; [reflexivity|]. split; [assumption|]. split.
  - pose proof (escape_ctext 40 fu Cf). pose proof (escape_ctext 40 un Cu).
    assert (Lid : length (cstr id) = 1%nat) by (destruct Hid; subst; reflexivity).
    assert (LL : forall x y : list Z, (length (x ++ y) = length x + length y)%nat) by (intros; apply app_length).
    rewrite !LL, Lid. lits. change (length nl) with 1%nat. lia.
  - set (inner := nl ++ cstr "        <Function>" ++ escape_text fu ++ cstr "</Function>" ++ nl ++
      cstr "        <Unit>" ++ escape_text un ++ cstr "</Unit>" ++ nl ++
      cstr "        <Value>" ++ v ++ cstr "</Value>" ++ nl ++ cstr "    ").
    match goal with |- renders ?l _ => assert (E : l = cstr "    " ++ [60] ++ cstr "DataRecord" ++ attrs_text [(cstr "id", cstr id)] ++ [62] ++ inner ++ [60; 47] ++ cstr "DataRecord" ++ [62] ++ (nl ++ nl)) end.
    { unfold inner. destruct Hid; subst id; rewrite <- !app_assoc; reflexivity. }
    rewrite E. apply rn_elem; [apply blanksb_ok; reflexivity|apply nameb_ok; reflexivity| | |apply rn_nil, blanksb_ok; reflexivity].
    + constructor; [|constructor]. split; [apply nameb_ok; reflexivity|].
      cbn [snd]. destruct Hid; subst id; [change (cstr "0") with [48]|change (cstr "1") with [49]]; apply st_char; try lia; apply st_nil.
    + unfold inner. apply renders_ws; [apply blanksb_ok; reflexivity|].
      apply (line_shown (cstr "        ") "Function"); [reflexivity|reflexivity|apply Cf|].
      apply (line_shown (cstr "        ") "Unit"); [reflexivity|reflexivity|apply Cu|].
      apply (line_plain (cstr "        ") "Value"); [reflexivity|reflexivity|assumption|].
      apply rn_nil, blanksb_ok. reflexivity.
Qed.
Lemma fixed_xml_ok x : fixed_bytes x ->
  exists text, mbus_data_fixed_xml x = Ok text /\ fixed_document x text /\ (length text < 8 * 1024)%nat.
Proof.
  intros (I1 & I2 & V1 & V2 & V3 & V4 & T1 & T2 & T3 & T4). unfold mbus_data_fixed_xml.
  rewrite bcd_hex_spec by (try assumption; lia). cbn [bind]. rewrite firstn_all2 by lia.
  assert (Hid : 0 <= le (x_id x) < 256 ^ 4). { pose proof (le_bounds (x_id x) I1) as B. rewrite I2 in B. exact B. }
  pose proof (fixed_medium_ctext x) as Cm. set (md := mbus_data_fixed_medium x) in *.
  rewrite (enc_small 256 40 md) by (try assumption; lia). cbn [bind].
  destruct (counter_ok "0" (x_status x) (x_type1 x) (x_val1 x) T2 T3 V1 V2 (or_introl eq_refl)) as (t1 & v1 & E1 & C1 & L1 & R1).
  destruct (counter_ok "1" (x_status x) (x_type2 x) (x_val2 x) T2 T4 V3 V4 (or_intror eq_refl)) as (t2 & v2 & E2 & C2 & L2 & R2).
  rewrite E1, E2. cbn [bind]. destruct (hex2_width (x_status x) T2) as [Hst Pst].
  eexists. split; [reflexivity|]. split.
  - set (inner2 := nl ++ cstr "        <Id>" ++ fmt_X (le (x_id x)) ++ cstr "</Id>" ++ nl ++
      cstr "        <Medium>" ++ escape_text md ++ cstr "</Medium>" ++ nl ++
      cstr "        <AccessNumber>" ++ fmt_d (x_tx_cnt x) ++ cstr "</AccessNumber>" ++ nl ++
      cstr "        <Status>" ++ fmt_X2 (x_status x) ++ cstr "</Status>" ++ nl ++ cstr "    ").
    set (inner1 := [10; 10] ++ cstr "    " ++ [60] ++ cstr "SlaveInformation" ++ attrs_text [] ++ [62] ++ inner2 ++ [60; 47] ++ cstr "SlaveInformation" ++ [62] ++ ((nl ++ nl) ++ t1 ++ t2)).
    exists ([] ++ [60] ++ cstr "MBusData" ++ attrs_text [] ++ [62] ++ inner1 ++ [60; 47] ++ cstr "MBusData" ++ [62] ++ nl),
      (fmt_X (le (x_id x))), (fmt_d (x_tx_cnt x)), (fmt_X2 (x_status x)), v1, v2.
    split. { unfold XML_PI, inner1, inner2. rewrite <- !app_assoc. reflexivity. }
    split; [apply hexadecimal_fmt_X; lia|]. split; [apply decimal_fmt_d|]. split; [assumption|].
    split; [assumption|]. split; [assumption|].
    apply rn_elem; [constructor|apply nameb_ok; reflexivity|constructor| |apply rn_nil, blanksb_ok; reflexivity].
    unfold inner1. apply renders_ws; [apply blanksb_ok; reflexivity|].
    apply rn_elem; [apply blanksb_ok; reflexivity|apply nameb_ok; reflexivity|constructor| |].
    + unfold inner2. apply renders_ws; [apply blanksb_ok; reflexivity|].
      apply (line_plain (cstr "        ") "Id"); [reflexivity|reflexivity|apply hex_plain, fmt_X_chars; lia|].
      apply (line_shown (cstr "        ") "Medium"); [reflexivity|reflexivity|apply Cm|].
      apply (line_plain (cstr "        ") "AccessNumber"); [reflexivity|reflexivity|apply fmt_d_plain|].
      apply (line_plain (cstr "        ") "Status"); [reflexivity|reflexivity|assumption|].
      apply rn_nil, blanksb_ok. reflexivity.
    + apply renders_ws; [apply blanksb_ok; reflexivity|]. exact (renders_app _ _ _ _ R1 R2).
  - pose proof (escape_ctext 40 md Cm). pose proof (fmt_X_len (le (x_id x)) 7 ltac:(change (16 ^ Z.of_nat 8) with (256 ^ 4); lia)).
    pose proof (fmt_d_byte (x_tx_cnt x) T1). destruct Hst as [Lst _].
    unfold XML_PI, XML_OPEN, XML_CLOSE. lens. rewrite Lst. cbn [length]. lia.
Qed.
