(** C82, C83: normalised records and normalised XML under shortage of memory. *)
From Coq Require Import String.
From Coq Require Import List.
From Verif Require Import CBase PBase PropText PropXml CStr MFrame MCodec SCodec MVar SVar MText SText MXml SXml MUnit MXmlN SUnit SNorm SXmlN PropVar PropNorm PXml3 PXml4 PXmlN MMem SMem PMem PMem2 PropMem MMemN SMemN PMemN.
Local Open Scope Z_scope.

(** ** C82: normalised records *)
(** For a record of a telegram (described by [a]), with any pattern of failing allocations: either NULL, and then an allocation failed
    or the record has no normalised form, and nothing stays allocated (for the two reserved unit codes perhaps one text); or a new
    record with its texts, which shows the normalised record, complete unless an allocation failed and otherwise at most without
    unit or quantity; [mbus_record_free] releases all of it. *)
Theorem C82_record_partial : forall a m, wf_rec a -> (length (a_difes a) <= 8)%nat -> storage_number (a_dif a) (a_difes a) < 2 ^ 31 ->
  exists o lost q m' used, mbus_parse_variable_record (obj a) = Ok (o, lost) /\ parse_variable_mem (obj a) m = Ok (q, m') /\ attempts used m m' /\
  match q with
  | None => (In true used \/ o = None) /\ exists leak, added leak m m' /\ (length leak <= 1)%nat /\ (leak <> [] -> a_vif a = 0x7B \/ a_vif a = 0x7D)
  | Some (p, n) => added (p :: texts n) m m' /\ (exists n0, o = Some n0 /\ thin (seen n) n0 /\ (seen n = n0 <-> ~ In true used)) /\
      exists m'', mbus_record_free p n m' = Ok m'' /\ same_memory m m'' /\ m_fails m'' = m_fails m'
  end.
Proof.
  intros a m W L S. destruct (C60_total a W L S) as (o & lost & E & _ & Lo). exists o, lost.
  destruct (variable_record_mem _ m [] m o lost E (added_refl m)) as (out & E1 & q & m' & used & leak & -> & U & Ll & K). exists q, m', used. split; [exact E|]. split; [exact E1|]. split; [exact U|].
  destruct q as [[p n]|].
  - destruct K as (-> & A & n0 & K). split; [rewrite app_nil_r in A; exact A|]. split; [exists n0; exact K|].
    destruct (record_free_added p n [] m m' A) as (m2 & F & A2 & F2). exists m2. split; [exact F|]. split; [apply added_nil; exact A2|exact F2].
  - destruct K as (A & K). split; [destruct K as [K|[K _]]; auto|]. exists leak. rewrite app_nil_r in A. split; [exact A|]. split; [destruct lost; lia|].
    intros N. destruct lost; [apply Lo; reflexivity|]. destruct leak; [congruence|cbn in Ll; lia].
Qed.
(** The same for any record object for which the function is defined, and the trailing data of a telegram in particular. *)
Theorem C82_any_record : forall r o lost m, mbus_parse_variable_record r = Ok (o, lost) ->
  exists q m' used, parse_variable_mem r m = Ok (q, m') /\ attempts used m m' /\
  match q with
  | None => (In true used \/ o = None) /\ exists leak, added leak m m' /\ (length leak <= if lost then 1 else 0)%nat
  | Some (p, n) => added (p :: texts n) m m' /\ (exists n0, o = Some n0 /\ thin (seen n) n0 /\ (seen n = n0 <-> ~ In true used)) /\
      exists m'', mbus_record_free p n m' = Ok m'' /\ same_memory m m'' /\ m_fails m'' = m_fails m'
  end.
Proof.
  intros r o lost m E.
  destruct (variable_record_mem _ m [] m o lost E (added_refl m)) as (out & E1 & q & m' & used & leak & -> & U & Ll & K). exists q, m', used. split; [exact E1|]. split; [exact U|].
  destruct q as [[p n]|].
  - destruct K as (-> & A & n0 & K). split; [rewrite app_nil_r in A; exact A|]. split; [exists n0; exact K|].
    destruct (record_free_added p n [] m m' A) as (m2 & F & A2 & F2). exists m2. split; [exact F|]. split; [apply added_nil; exact A2|exact F2].
  - destruct K as (A & K). split; [destruct K as [K|[K _]]; auto|]. exists leak. rewrite app_nil_r in A. split; [exact A|exact Ll].
Qed.
(** The counters of fixed data: the same, and nothing is ever left behind. *)
Theorem C82_fixed : forall status unit data o m, mbus_parse_fixed_record status unit data = Ok o ->
  exists q m' used, parse_fixed_mem status unit data m = Ok (q, m') /\ attempts used m m' /\
  match q with
  | None => (In true used \/ o = None) /\ same_memory m m'
  | Some (p, n) => added (p :: texts n) m m' /\ (exists n0, o = Some n0 /\ thin (seen n) n0 /\ (seen n = n0 <-> ~ In true used)) /\
      exists m'', mbus_record_free p n m' = Ok m'' /\ same_memory m m'' /\ m_fails m'' = m_fails m'
  end.
Proof.
  intros status unit data o m E.
  destruct (fixed_record_mem _ _ _ m [] m o E (added_refl m)) as (out & E1 & q & m' & used & leak & -> & U & Ll & K). exists q, m', used. split; [exact E1|]. split; [exact U|].
  destruct q as [[p n]|].
  - destruct K as (-> & A & n0 & K). split; [rewrite app_nil_r in A; exact A|]. split; [exists n0; exact K|].
    destruct (record_free_added p n [] m m' A) as (m2 & F & A2 & F2). exists m2. split; [exact F|]. split; [apply added_nil; exact A2|exact F2].
  - destruct K as (A & K). split; [destruct K as [K|[K _]]; auto|]. destruct leak; [|cbn in Ll; lia]. apply added_nil. exact A.
Qed.
(** With memory for everything: the record, complete, exactly when there is a normalised form. *)
Theorem C82_plenty : forall r o lost m, plenty m -> mbus_parse_variable_record r = Ok (o, lost) ->
  exists q m', parse_variable_mem r m = Ok (q, m') /\ plenty m' /\ option_map (fun q => seen (snd q)) q = o.
Proof.
  intros r o lost m Pl E. destruct (C82_any_record r o lost m E) as (q & m' & used & E1 & U & K). exists q, m'. split; [exact E1|].
  unfold plenty, attempts in *. rewrite U, in_app_iff in Pl. split; [tauto|]. destruct q as [[p n]|].
  - destruct K as (_ & (n0 & -> & _ & K) & _). cbn. f_equal. apply K. tauto.
  - destruct K as [[K|K] _]; [tauto|]. subst o. reflexivity.
Qed.
(** Defects. A text value with a reserved unit code: NULL, and its text stays allocated, without any shortage. *)
Definition lost_rec : arec := mkA 0x0D [] 0x7B [] [] [1; 65].
Theorem C82_leak_refuted : wf_rec lost_rec /\ exists m', plenty (mkM [] []) /\ parse_variable_mem (obj lost_rec) (mkM [] []) = Ok (None, m') /\ added [2%nat] (mkM [] []) m'.
Proof.
  split; [unfold lost_rec; wf_example; exists 1, [65]; auto|].
  exists (mkM [None; None; Some CBlock; None; None] []). split; [intros []|]. split; [vm_compute; reflexivity|].
  split; [constructor; [intros []|constructor]|]. split.
  - intros a [<-|[]]. split; [reflexivity|discriminate].
  - intros a N. destruct a as [|[|[|a]]]; [reflexivity|reflexivity|exfalso; apply N; left; reflexivity|]. unfold look. cbn. destruct a as [|[|[|a]]]; reflexivity.
Qed.
(** A record is returned although there was no memory for its unit: 5 litres are shown as 0.005 of nothing. *)
Definition five : arec := mkA 0x01 [] 0x13 [] [] [5].
Lemma five_wf : wf_rec five. Proof. unfold five. wf_example. Qed.
Theorem C82_unit_undetected : exists p n m', parse_variable_mem (obj five) (mkM [] [false; false; true]) = Ok (Some (p, n), m') /\ q_unit n = None /\
  exists n0, mbus_parse_variable_record (obj five) = Ok (Some n0, false) /\ n_unit n0 = Some (cstr "m^3"%string) /\ n_value (seen n) = n_value n0.
Proof.
  eexists _, _, _. split; [vm_compute; reflexivity|]. split; [reflexivity|]. eexists. split; [vm_compute; reflexivity|]. split; [vm_compute; reflexivity|vm_compute; reflexivity].
Qed.
Print Assumptions C82_record_partial.
Print Assumptions C82_any_record.
Print Assumptions C82_fixed.
Print Assumptions C82_plenty.
Print Assumptions C82_leak_refuted.
Print Assumptions C82_unit_undetected.
(** Which objects remain, for each place where the memory can run out; a text value has five allocations. *)
Definition ex_norm (a : arec) (fails : list bool) : option (bool * nat) :=
  match parse_variable_mem (obj a) (mkM [] fails) with
  | Ok (o, m) => Some (match o with Some _ => true | None => false end, length (filter (fun c => match c with Some _ => true | None => false end) (m_cells m))) | UB => None end.
Definition name_rec : arec := mkA 0x0D [] 0x78 [] [] [3; 0x43; 0x42; 0x41].
Example C82_nonvacuous : wf_rec five /\ wf_rec name_rec /\
  map (ex_norm name_rec) [[]; [true]; [false; true]; [false; false; true]; [false; false; false; true]; [false; false; false; false; true]] =
    [Some (true, 5%nat); Some (false, 0%nat); Some (false, 0%nat); Some (false, 0%nat); Some (true, 4%nat); Some (true, 4%nat)] /\
  map (ex_norm five) [[]; [true]; [false; true]; [false; false; true; true]] = [Some (true, 4%nat); Some (false, 0%nat); Some (false, 0%nat); Some (true, 2%nat)].
Proof. split; [exact five_wf|]. split; [unfold name_rec; wf_example; exists 3, [0x43; 0x42; 0x41]; auto|]. split; vm_compute; reflexivity. Qed.

(** ** C83: normalised XML *)
(** [mbus_frame_data_xml_normalized] of variable data whose records are those of a telegram: NULL after a failed allocation, or a
    well-formed document in one new buffer: all records of the telegram, in order, each normalised, but after a failed allocation
    perhaps empty or without unit or quantity; the complete document if no allocation failed. Nothing else stays allocated but at
    most one text for each record with a reserved unit code. *)
Theorem C83_document_partial : forall pd es l m, p_type pd = DT_VARIABLE -> bytes (pv_header (p_var pd)) -> length (pv_header (p_var pd)) = 12%nat ->
  chain m (pv_record (p_var pd)) l -> map snd l = map entry_obj es -> Forall wf_entry es -> Forall small_norm es -> Z.of_nat (length es) < 10 ^ 9 ->
  exists o m' used leak, frame_data_xmln_mem pd m = Ok (o, m') /\ attempts used m m' /\ (length leak <= length (filter reserved_unit es))%nat /\
  match o with
  | None => added leak m m' /\ In true used
  | Some (text, b) => added (b :: leak) m m' /\ norm_document thin_entry (pv_header (p_var pd)) es text /\ (~ In true used -> norm_document norm_entry (pv_header (p_var pd)) es text)
  end.
Proof. exact normalised_shortage. Qed.
(** So without reserved unit codes nothing is left behind. *)
Theorem C83_no_leak : forall pd es l m, p_type pd = DT_VARIABLE -> bytes (pv_header (p_var pd)) -> length (pv_header (p_var pd)) = 12%nat ->
  chain m (pv_record (p_var pd)) l -> map snd l = map entry_obj es -> Forall wf_entry es -> Forall small_norm es -> Z.of_nat (length es) < 10 ^ 9 ->
  Forall (fun e => reserved_unit e = false) es ->
  exists o m', frame_data_xmln_mem pd m = Ok (o, m') /\ match o with None => same_memory m m' | Some (_, b) => added [b] m m' end.
Proof.
  intros pd es l m T B L C M W S N R. destruct (normalised_shortage pd es l m T B L C M W S N) as (o & m' & used & leak & E & U & Lk & K). exists o, m'. split; [exact E|].
  assert (F : filter reserved_unit es = []). { clear -R. induction R as [|e es R1 R IH]; [reflexivity|]. cbn [filter]. rewrite R1. exact IH. }
  rewrite F in Lk. destruct leak; [|cbn in Lk; lia]. destruct o as [[t b]|]; [apply K|]. apply added_nil, K.
Qed.
(** Fixed data: NULL with nothing changed, or the document in one new buffer. *)
Theorem C83_fixed : forall pd m, p_type pd = DT_FIXED -> fixed_bytes (p_fix pd) ->
  exists o m' used, frame_data_xmln_mem pd m = Ok (o, m') /\ attempts used m m' /\
  match o with
  | None => same_memory m m' /\ In true used
  | Some (text, b) => added [b] m m' /\ ~ In true used /\ fixed_document (p_fix pd) text
  end.
Proof.
  intros pd m Ty B. unfold frame_data_xmln_mem. rewrite Ty. change (DT_FIXED =? DT_FIXED) with true. cbv iota. destruct (fixed_xml_ok _ B) as (t & E & D & _). rewrite E.
  destruct (text_shortage t m) as (o & m' & used & E1 & A & Q). exists o, m', used. split; [exact E1|]. split; [exact A|]. destruct o as [[text b]|]; [|exact Q]. destruct Q as (Q1 & -> & Q2). auto.
Qed.

(** The caller cannot see it: with memory for the buffer and the list of records only, the document of a telegram with two records
    is returned with two empty records. *)
Definition two_pd : pdat := mkPD (mkPV ex_header (Some 0%nat) 2 0) (d_fix fd_zero) DT_VARIABLE 0.
Definition two_mem (fails : list bool) : mem := mkM [Some (CRec (obj five) (Some 1%nat)); Some (CRec (obj (mkA 0x01 [] 0x13 [] [] [6])) None)] fails.
Lemma two_chain fails : chain (two_mem fails) (pv_record (p_var two_pd)) [(0%nat, obj five); (1%nat, obj (mkA 0x01 [] 0x13 [] [] [6]))].
Proof. eapply chain_cons; [reflexivity|]. eapply chain_cons; [reflexivity|]. constructor. Qed.
Definition two_es : list entry := [EData five; EData (mkA 0x01 [] 0x13 [] [] [6])].
Lemma two_small : Forall small_norm two_es.
Proof.
  repeat (apply Forall_cons || apply Forall_nil); cbn [small_norm five a_difes a_dif]; (split; [cbn; lia|]); (split; [vm_compute; reflexivity|]);
  intros n lost H; vm_compute in H; apply ok_inj2 in H as [H _]; injection H as <-; vm_compute; lia.
Qed.
Lemma two_wf : Forall wf_entry two_es.
Proof. repeat (apply Forall_cons || apply Forall_nil); cbn [wf_entry]; [exact five_wf|wf_example]. Qed.
Lemma returns_text (r : res (option (list Z * nat) * mem)) text : match r with Ok (Some (t, _), _) => Some t | _ => None end = Some text -> exists b m, r = Ok (Some (text, b), m).
Proof. destruct r as [[[[t b]|] m]|]; try discriminate. intros H. injection H as ->. exists b, m. reflexivity. Qed.
Theorem C83_empty_undetected : exists text b m', frame_data_xmln_mem two_pd (two_mem [false; true; true]) = Ok (Some (text, b), m') /\
  norm_document (fun _ ns => ns = []) ex_header two_es text.
Proof.
  (* the text is that of two records without a normalised form *)
  pose (r := mkA 0x01 [] 0x7B [] [] [5]). pose (m0 := mkM [Some (CRec (obj r) (Some 1%nat)); Some (CRec (obj r) None)] []).
  assert (Wr : wf_rec r) by (unfold r; wf_example).
  destruct (normalised_shortage two_pd [EData r; EData r] [(0%nat, obj r); (1%nat, obj r)] m0) as (o & m' & used & leak & E & U & _ & K).
  - reflexivity.
  - vm_compute; repeat constructor; discriminate.
  - reflexivity.
  - eapply chain_cons; [reflexivity|]. eapply chain_cons; [reflexivity|]. constructor.
  - reflexivity.
  - repeat (apply Forall_cons || apply Forall_nil); exact Wr.
  - assert (X : small_norm (EData r)). { cbn [small_norm a_difes a_dif r]. split; [cbn; lia|]. split; [vm_compute; reflexivity|]. intros n lost H. vm_compute in H. discriminate. }
    repeat (apply Forall_cons || apply Forall_nil); exact X.
  - vm_compute. reflexivity.
  - assert (used = []) by (unfold attempts in U; cbn in U; destruct used; [reflexivity|discriminate]). subst used. destruct o as [[text b]|]; [|destruct K as [_ []]]. destruct K as (_ & _ & K). specialize (K (fun x => x)).
    assert (X : match frame_data_xmln_mem two_pd m0 with Ok (Some (t, _), _) => Some t | _ => None end = Some text) by (rewrite E; reflexivity).
    assert (Y : match frame_data_xmln_mem two_pd (two_mem [false; true; true]) with Ok (Some (t, _), _) => Some t | _ => None end = Some text) by (rewrite <- X; vm_compute; reflexivity).
    apply returns_text in Y as (b' & m1 & Y). exists text, b', m1. split; [exact Y|].
    clear -K. destruct K as (body & slave & recs & K1 & K2 & K3 & K4). exists body, slave, recs. split; [exact K1|]. split; [exact K2|]. split; [exact K3|]. clear K1 K2 K3.
    cbn [norm_entries two_es] in *. destruct K4 as (n & ns & out & -> & (o & lost & E & V) & R & K4). destruct K4 as (n' & ns' & out' & -> & (o' & lost' & E' & V') & R' & ->).
    vm_compute in E, E'. apply ok_inj2 in E as [<- _]. apply ok_inj2 in E' as [<- _].
    exists n, ns, [n']. split; [reflexivity|]. split; [exact V|]. split; [exact R|]. exists n', ns', []. auto.
Qed.
Print Assumptions C83_empty_undetected.
Print Assumptions C83_document_partial.
Print Assumptions C83_no_leak.
Print Assumptions C83_fixed.
Definition ex_xmln (fails : list bool) : option (bool * nat) :=
  match frame_data_xmln_mem two_pd (two_mem fails) with
  | Ok (o, m) => Some (match o with Some _ => true | None => false end, length (filter (fun c => match c with Some _ => true | None => false end) (m_cells m))) | UB => None end.
Example C83_nonvacuous : p_type two_pd = DT_VARIABLE /\ bytes (pv_header (p_var two_pd)) /\ length (pv_header (p_var two_pd)) = 12%nat /\ map snd [(0%nat, obj five); (1%nat, obj (mkA 0x01 [] 0x13 [] [] [6]))] = map entry_obj two_es /\
  Forall wf_entry two_es /\ Forall small_norm two_es /\ Forall (fun e => reserved_unit e = false) two_es /\
  map ex_xmln [[]; [true]; [false; true]; [false; false; false; true]] = [Some (true, 3%nat); Some (false, 2%nat); Some (true, 3%nat); Some (true, 3%nat)].
Proof.
  split; [reflexivity|]. split; [vm_compute; repeat constructor; discriminate|]. split; [reflexivity|]. split; [reflexivity|]. split; [exact two_wf|]. split; [exact two_small|].
  split; [repeat (apply Forall_cons || apply Forall_nil); reflexivity|]. vm_compute. reflexivity.
Qed.
