(** Proofs about the document buffer and the record lists of mbus_frame_xml. *)
From Verif Require Import CBase PBase CStr MFrame MCodec PCodec MVar MText MXml SVar SXml PVar PVar2 PVar3 PXml.

Definition nonul (l : list Z) : Prop := ~ In 0 l.
Lemma nonul_app a b : nonul (a ++ b) <-> nonul a /\ nonul b.
Proof. unfold nonul. rewrite in_app_iff. tauto. Qed.
Lemma c_text_ok t junk : nonul t -> c_text (t ++ 0 :: junk) = t.
Proof.
  induction t as [|c t IH]; intros H; [reflexivity|]. cbn [app c_text].
  destruct (Z.eqb_spec c 0) as [->|N]; [exfalso; apply H; left; reflexivity|].
  rewrite IH; [reflexivity|]. intros Hi. apply H. right. assumption.
Qed.

(** The buffer holds the text [t] and its terminator. *)
Definition holds (d : doc) (t : list Z) : Prop :=
  b_len d = length t /\ (length t < length (b_buf d))%nat /\ firstn (length t + 1) (b_buf d) = t ++ [0].

Lemma append_ok d t s : holds d t -> (length t + length s < length (b_buf d))%nat ->
  exists d', doc_append d s = Ok d' /\ holds d' (t ++ s) /\ length (b_buf d') = length (b_buf d).
Proof.
  intros (H1 & H2 & H3) H. unfold doc_append. rewrite H1.
  destruct (Nat.ltb_spec (length (b_buf d)) (length t)); [lia|].
  unfold snprintf_s. destruct (length (b_buf d) - length t)%nat as [|m] eqn:Em; [lia|].
  rewrite firstn_all2 by lia.
  destruct (put_ok (b_buf d) (length t) (s ++ [0]) ltac:(rewrite app_length; cbn; lia)) as (b' & E & L & F & _).
  rewrite E. cbn [bind]. eexists. split; [reflexivity|]. unfold holds. cbn [b_len b_buf].
  rewrite app_length. split; [|lia]. split; [reflexivity|]. split; [lia|].
  rewrite app_length in F. cbn [length] in F. rewrite Nat.add_assoc in F.
  assert (F2 : firstn (length t) (firstn (length t + 1) (b_buf d)) = firstn (length t) (t ++ [0])) by (rewrite H3; reflexivity).
  rewrite firstn_firstn, Nat.min_l in F2 by lia.
  rewrite (firstn_app_exact t) in F2 by reflexivity. rewrite F, F2, <- app_assoc. reflexivity.
Qed.

Lemma grow_ok d t : holds d t -> (8 * 1024 <= length (b_buf d))%nat ->
  holds (doc_grow d) t /\ (8 * 1024 <= length (b_buf (doc_grow d)))%nat /\ (length t + 1024 <= length (b_buf (doc_grow d)))%nat.
Proof.
  intros (H1 & H2 & H3) H. unfold doc_grow. rewrite H1.
  destruct (Nat.leb_spec (length t) (length (b_buf d))); [|lia]. cbn [andb].
  destruct (Nat.ltb_spec (length (b_buf d) - length t) 1024).
  - unfold holds. cbn [b_buf b_len]. rewrite app_length, repeat_length. split; [split; [reflexivity || lia|split; [lia|]]|lia].
    rewrite firstn_app. replace (length t + 1 - length (b_buf d))%nat with 0%nat by lia. cbn [firstn].
    rewrite app_nil_r. assumption.
  - split; [split; [assumption|split; assumption]|lia].
Qed.

Definition roomy (d : doc) (t : list Z) : Prop :=
  holds d t /\ (8 * 1024 <= length (b_buf d))%nat /\ (length t + 13 <= length (b_buf d))%nat /\ nonul t.

Section Doc.
  Variable stamp : Z -> option (list Z).

  (** The texts of the records, short enough for the buffer. *)
  Fixpoint texts_ok (rs : list rec) (i fc : Z) (ts : list (list Z)) : Prop :=
    match rs, ts with
    | [], [] => True
    | r :: rs', t :: ts' => mbus_data_variable_record_xml r i fc (stamp i) = Ok t /\ nonul t /\ (length t <= 1011)%nat /\
                            texts_ok rs' (i + 1) fc ts'
    | _, _ => False
    end.

  Lemma records_ok : forall rs ts d t i fc, texts_ok rs i fc ts -> roomy d t ->
    exists d', doc_records stamp d rs i fc = Ok (d', i + Z.of_nat (length rs)) /\
      roomy d' (t ++ concat ts).
  Proof.
    induction rs as [|r rs IH]; intros [|x ts] d t i fc HT H; cbn [texts_ok] in HT; try contradiction; cbn [doc_records concat length].
    - exists d. rewrite app_nil_r, Z.add_0_r. auto.
    - destruct HT as (E0 & N & L & HT). rewrite E0. cbn [bind].
      destruct H as (H1 & H2 & H3 & H4). destruct (grow_ok d t H1 H2) as (G1 & G2 & G3).
      destruct (append_ok (doc_grow d) t x G1 ltac:(lia)) as (d1 & E1 & A1 & A2).
      rewrite E1. cbn [bind].
      assert (Ht : length (t ++ x) = (length t + length x)%nat) by apply app_length.
      destruct (IH ts d1 (t ++ x) (i + 1) fc HT) as (d2 & E2 & R2).
      { split; [assumption|]. rewrite nonul_app. repeat split; try assumption; lia. }
      exists d2. rewrite E2. split; [f_equal; f_equal; lia|]. rewrite <- app_assoc in R2. exact R2.
  Qed.

  Lemma nonul_const l : forallb (fun c => negb (c =? 0)) l = true -> nonul l.
  Proof. intros H Hi. rewrite forallb_forall in H. specialize (H 0 Hi). discriminate. Qed.

  Definition header_ok (h x : list Z) : Prop := mbus_data_variable_header_xml h = Ok x /\ nonul x /\ (length x <= 4000)%nat.
  Lemma start_ok h x : header_ok h x -> exists d, doc_start h = Ok d /\ roomy d (XML_PI ++ XML_OPEN ++ x).
  Proof.
    intros (E0 & N & L). unfold doc_start.
    assert (Hn : length (b_buf doc_new) = (8 * 1024)%nat) by (unfold doc_new; cbn [b_buf]; apply repeat_length).
    assert (Lpi : length XML_PI = 44%nat) by reflexivity.
    assert (Lop : length XML_OPEN = 12%nat) by reflexivity.
    assert (H0 : holds doc_new []).
    { split; [reflexivity|]. split; [rewrite Hn; cbn; lia|].
      change (length (@nil Z) + 1)%nat with 1%nat. unfold doc_new. cbn [b_buf].
      reflexivity. }
    destruct (append_ok doc_new [] XML_PI H0) as (d1 & E1 & A1 & B1). { rewrite Lpi, Hn. cbn [length]. lia. }
    rewrite E1. cbn [bind].
    destruct (append_ok d1 _ XML_OPEN A1) as (d2 & E2 & A2 & B2). { rewrite app_length, Lpi, Lop, B1, Hn. cbn [length]. lia. }
    rewrite E2. cbn [bind]. rewrite E0. cbn [bind].
    destruct (append_ok d2 _ x A2) as (d3 & E3 & A3 & B3).
    { rewrite !app_length, Lpi, Lop, B2, B1, Hn. cbn [length]. lia. }
    rewrite E3. exists d3. split; [reflexivity|]. cbn [app] in A3. rewrite <- app_assoc in A3.
    split; [assumption|]. rewrite B3, B2, B1, Hn.
    split; [lia|]. split; [rewrite !app_length, Lpi, Lop; lia|].
    rewrite !nonul_app. split; [apply nonul_const; reflexivity|]. split; [apply nonul_const; reflexivity|assumption].
  Qed.

  Lemma close_ok d t : roomy d t -> exists d', doc_append d XML_CLOSE = Ok d' /\ c_text (b_buf d') = t ++ XML_CLOSE.
  Proof.
    intros (H1 & H2 & H3 & H4). assert (L : length XML_CLOSE = 12%nat) by reflexivity.
    destruct (append_ok d t XML_CLOSE H1 ltac:(lia)) as (d1 & E1 & (A1 & A2 & A3) & _).
    exists d1. split; [assumption|].
    rewrite <- (firstn_skipn (length (t ++ XML_CLOSE) + 1) (b_buf d1)), A3, <- app_assoc. cbn [app].
    apply c_text_ok. rewrite nonul_app. split; [assumption|]. apply nonul_const. reflexivity.
  Qed.

  Lemma variable_xml_ok dv x ts : header_ok (v_header dv) x -> texts_ok (v_records dv) 0 (-1) ts ->
    mbus_data_variable_xml stamp dv = Ok (XML_PI ++ XML_OPEN ++ x ++ concat ts ++ XML_CLOSE).
  Proof.
    intros Hh Ht. unfold mbus_data_variable_xml. destruct (start_ok (v_header dv) x Hh) as (d & E & R). rewrite E. cbn [bind].
    destruct (records_ok (v_records dv) ts d _ 0 (-1) Ht R) as (d1 & E1 & R1). rewrite E1. cbn [bind].
    destruct (close_ok d1 _ R1) as (d2 & E2 & T2). rewrite E2. cbn [bind]. rewrite T2. f_equal.
    rewrite <- !app_assoc. reflexivity.
  Qed.

  (** ** Chains *)
  (** A variable data reply with header [h] and records [rs]. *)
  Definition var_reply (f : frame) (rs : list rec) : Prop :=
    assigns_record f = true /\ forall fd, exists v,
      mbus_frame_data_parse f fd = Ok (0, mkFD v (d_fix fd) DT_VARIABLE (d_error fd)) /\ v_records v = rs.

  Lemma release_last h rs : release (h ++ [Some rs]) (length h) = Ok (h ++ [None]).
  Proof.
    induction h as [|x h IH]; [reflexivity|]. cbn [app length release].
    destruct x; rewrite IH; reflexivity.
  Qed.

  Definition heap_with (h : heap) (rs : list rec) : heap := match rs with [] => h | _ => h ++ [Some rs] end.
  Definition ptr_with (h : heap) (rs : list rec) : option nat := match rs with [] => None | _ => Some (length h) end.
  Lemma parse_heap_ok f rs fd h p : var_reply f rs ->
    exists v, parse_heap f fd h p
      = Ok (0, mkFD v (d_fix fd) DT_VARIABLE (d_error fd),
            heap_with h rs, ptr_with h rs)
      /\ v_records v = rs /\ mbus_frame_data_parse f fd = Ok (0, mkFD v (d_fix fd) DT_VARIABLE (d_error fd)).
  Proof.
    intros [Ha Hp]. destruct (Hp fd) as (v & E & Ev). unfold parse_heap. rewrite E. cbn [bind d_var]. rewrite Ha, Ev.
    exists v. destruct rs; auto.
  Qed.

  Definition heap_after (h : heap) (rs : list rec) : heap := match rs with [] => h | _ => h ++ [None] end.
  Lemma use_free h rs : 
    deref (heap_with h rs) (ptr_with h rs) = Ok rs /\ free_list (heap_with h rs) (ptr_with h rs) = Ok (heap_after h rs).
  Proof.
    destruct rs as [|r rs]; [split; reflexivity|]. unfold heap_with, ptr_with, deref, free_list, heap_after.
    rewrite nth_error_app2 by lia. rewrite Nat.sub_diag. cbn [nth_error]. split; [reflexivity|]. apply release_last.
  Qed.

  (** The texts of all telegrams. *)
  Fixpoint chain_texts (rss : list (list rec)) (i fc : Z) (tss : list (list (list Z))) : Prop :=
    match rss, tss with
    | [], [] => True
    | rs :: rss', ts :: tss' => texts_ok rs i fc ts /\ chain_texts rss' (i + Z.of_nat (length rs)) (fc + 1) tss'
    | _, _ => False
    end.
  Definition nonempty (rs : list rec) : bool := match rs with [] => false | _ => true end.

  Lemma chain_ok : forall fs rss, Forall2 var_reply fs rss ->
    forall tss fd h p d t i fc, chain_texts rss i fc tss -> roomy d t -> Forall (eq None) h ->
    exists h', xml_chain stamp fs fd h p d i fc
      = Ok (mkOut (Some (t ++ concat (map (@concat Z) tss) ++ XML_CLOSE)) h' false) /\ Forall (eq None) h' /\
      length h' = (length h + length (filter nonempty rss))%nat.
  Proof.
    induction 1 as [|f rs fs rss Hf _ IH]; intros [|ts tss] fd h p d t i fc HT R N; cbn [chain_texts] in HT; try contradiction;
      cbn [xml_chain map concat filter length].
    - destruct (close_ok d t R) as (d2 & E2 & T2). rewrite E2. cbn [bind app]. rewrite T2.
      exists h. split; [reflexivity|]. split; [assumption|]. cbn. lia.
    - destruct HT as [HT1 HT2].
      destruct (parse_heap_ok f rs fd h p Hf) as (v & E & Ev & _). rewrite E. cbn [bind]. change (0 =? -1) with false. cbv iota.
      destruct (use_free h rs) as [U1 U2]. rewrite U1. cbn [bind].
      destruct (records_ok rs ts d t i fc HT1 R) as (d1 & E1 & R1). rewrite E1. cbn [bind]. rewrite U2. cbn [bind].
      assert (N1 : Forall (eq None) (heap_after h rs)).
      { destruct rs; [assumption|]. apply Forall_app. split; [assumption|]. repeat constructor. }
      destruct (IH tss (mkFD v (d_fix fd) DT_VARIABLE (d_error fd)) (heap_after h rs)
                   (ptr_with h rs) d1 _ (i + Z.of_nat (length rs)) (fc + 1) HT2 R1 N1) as (h' & E' & N' & L').
      exists h'. rewrite E'. split; [f_equal; f_equal; f_equal; rewrite <- !app_assoc; reflexivity|]. split; [assumption|].
      rewrite L'. destruct rs; cbn [heap_after nonempty length filter]; [lia|]. rewrite app_length. cbn [length]. lia.
  Qed.

  Ltac first_telegram Hf v E Ev Ep :=
    unfold mbus_frame_xml;
    destruct (parse_heap_ok _ _ fd_zero [] None Hf) as (v & E & Ev & Ep); rewrite E; cbn [bind d_type]; change (0 =? -1) with false; cbv iota;
    change (DT_VARIABLE =? DT_ERROR) with false; change (DT_VARIABLE =? DT_FIXED) with false; change (DT_VARIABLE =? DT_VARIABLE) with true; cbv iota;
    cbn [d_var].

  Lemma frame_xml_ok f fs h x rs rss tss :
    var_reply f rs -> (forall fd fd', mbus_frame_data_parse f fd = Ok (0, fd') -> v_header (d_var fd') = h) ->
    Forall2 var_reply fs rss -> header_ok h x ->
    chain_texts (rs :: rss) 0 (match fs with [] => -1 | _ => 0 end) tss ->
    exists hp, mbus_frame_xml stamp f fs
      = Ok (mkOut (Some (XML_PI ++ XML_OPEN ++ x ++ concat (map (@concat Z) tss) ++ XML_CLOSE)) hp false)
      /\ Forall (eq None) hp /\ length hp = length (filter nonempty (rs :: rss)).
  Proof.
    intros Hf Hh HF Hx HT. first_telegram Hf v E Ev Ep.
    specialize (Hh _ _ Ep). cbn [d_var] in Hh |- *. rewrite Hh.
    destruct (start_ok h x Hx) as (d & Es & R). rewrite Es. cbn [bind].
    destruct (use_free [] rs) as [U1 U2]. rewrite U1. cbn [bind].
    destruct tss as [|ts tss]; [contradiction|]. cbn [chain_texts] in HT. destruct HT as [HT1 HT2].
    destruct (records_ok rs ts d _ 0 _ HT1 R) as (d1 & E1 & R1). rewrite E1. cbn [bind]. rewrite U2. cbn [bind].
    assert (N1 : Forall (eq None) (heap_after [] rs)) by (destruct rs; repeat constructor).
    destruct (chain_ok fs rss HF tss (mkFD v (d_fix fd_zero) DT_VARIABLE (d_error fd_zero)) (heap_after [] rs)
               (ptr_with [] rs) d1 _ (0 + Z.of_nat (length rs))
               ((match fs with [] => -1 | _ => 0 end) + 1) HT2 R1 N1) as (h' & E' & N' & L').
    exists h'. rewrite E'. split; [|split; [assumption|]].
    - f_equal. f_equal. f_equal. cbn [map concat]. rewrite <- !app_assoc. reflexivity.
    - rewrite L'. destruct rs; cbn; lia.
  Qed.

  (** The pointer to a freed list is used again when a later reply does not set it. *)
  Lemma chain_dangling f rs g fs h x ts :
    var_reply f rs -> rs <> [] -> assigns_record g = false ->
    (forall fd, exists fd', mbus_frame_data_parse g fd = Ok (0, fd')) ->
    (forall fd fd', mbus_frame_data_parse f fd = Ok (0, fd') -> v_header (d_var fd') = h) -> header_ok h x -> texts_ok rs 0 0 ts ->
    mbus_frame_xml stamp f (g :: fs) = UB.
  Proof.
    intros Hf Hne Hg Hp Hh Hx HT. first_telegram Hf v E Ev Ep. specialize (Hh _ _ Ep). cbn [d_var] in Hh. rewrite Hh.
    destruct (start_ok h x Hx) as (d & Es & R). rewrite Es. cbn [bind].
    destruct rs as [|r rs]; [congruence|].
    destruct (use_free [] (r :: rs)) as [U1 U2]. rewrite U1. cbn [bind].
    destruct (records_ok (r :: rs) ts d _ 0 0 HT R) as (d1 & E1 & R1). rewrite E1. cbn [bind]. rewrite U2. cbn [bind].
    cbn [xml_chain]. unfold parse_heap.
    destruct (Hp (mkFD v (d_fix fd_zero) DT_VARIABLE (d_error fd_zero))) as (fd' & Eg). rewrite Eg. cbn [bind]. rewrite Hg.
    change (0 =? -1) with false. reflexivity.
  Qed.

  (** A later reply that cannot be parsed loses the buffer and its own partial record list. *)
  Lemma chain_leak f rs g fs rs2 h x ts :
    var_reply f rs -> assigns_record g = true ->
    (forall fd, exists v, mbus_frame_data_parse g fd = Ok (-1, mkFD v (d_fix fd) DT_VARIABLE (d_error fd)) /\ v_records v = rs2) ->
    (forall fd fd', mbus_frame_data_parse f fd = Ok (0, fd') -> v_header (d_var fd') = h) -> header_ok h x -> texts_ok rs 0 0 ts ->
    exists hp, mbus_frame_xml stamp f (g :: fs) = Ok (mkOut None hp true) /\ (rs2 <> [] -> In (Some rs2) hp).
  Proof.
    intros Hf Hg Hp Hh Hx HT. first_telegram Hf v E Ev Ep. specialize (Hh _ _ Ep). cbn [d_var] in Hh. rewrite Hh.
    destruct (start_ok h x Hx) as (d & Es & R). rewrite Es. cbn [bind].
    destruct (use_free [] rs) as [U1 U2]. rewrite U1. cbn [bind].
    destruct (records_ok rs ts d _ 0 0 HT R) as (d1 & E1 & R1). rewrite E1. cbn [bind]. rewrite U2. cbn [bind].
    cbn [xml_chain]. unfold parse_heap.
    destruct (Hp (mkFD v (d_fix fd_zero) DT_VARIABLE (d_error fd_zero))) as (v' & Eg & Ev'). rewrite Eg. cbn [bind d_var]. rewrite Hg, Ev'.
    destruct rs2 as [|y rs2].
    - change (-1 =? -1) with true. eexists. split; [reflexivity|]. congruence.
    - change (-1 =? -1) with true. eexists. split; [reflexivity|]. intros _. apply in_or_app. right. left. reflexivity.
  Qed.
End Doc.
