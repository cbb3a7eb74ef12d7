(** Proofs about the static arrays, end: documents of frames and chains, normalised records and documents, addresses. *)
From Coq Require Import String.
From Coq Require Import List.
From Verif Require Import CBase PBase CStr MFrame MCodec SCodec PCodec PCodec2 MVar MText MXml MUnit MXmlN MSecond SVar SXml SText
  PVar PVar2 PVar3 PText PText2 PText3 PXml PXml2 PXml3 PXml4 MStatic SStatic PStatic PStatic2.

Definition xml_arrays : list slot := S_error :: fixed_arrays ++ document_arrays.
Lemma in_error s : In s [S_error] -> In s xml_arrays. Proof. unfold xml_arrays. inlist. Qed.
Lemma in_fixed s : In s fixed_arrays -> In s xml_arrays.
Proof. unfold xml_arrays. intros H. right. apply in_or_app. auto. Qed.
Lemma in_document s : In s document_arrays -> In s xml_arrays.
Proof. unfold xml_arrays. intros H. right. apply in_or_app. auto. Qed.
Lemma in_header s : In s header_arrays -> In s xml_arrays.
Proof. intros H. apply in_document, in_or_app. auto. Qed.
Lemma in_record s : In s record_arrays -> In s xml_arrays.
Proof. intros H. apply in_document, in_or_app. auto. Qed.

Definition same_answer {A} (L : list slot) (m : smem) : smem * A -> A -> Prop := fun a b => sized (fst a) /\ kept L m (fst a) /\ snd a = b.

Section Doc.
  Variable stamp : Z -> option (list Z).
  Hypothesis stamps : forall i t, stamp i = Some t -> ctext 21 t.

  Lemma data_alike m fd : sized m -> wf_fd fd -> few (List.length (v_records (d_var fd))) ->
    agrees (same_answer xml_arrays m) (s_data_xml stamp m fd) (mbus_frame_data_xml stamp fd).
  Proof.
    intros Hm (H1 & H2 & H3 & H4 & H5) N. unfold s_data_xml, mbus_frame_data_xml, same_answer.
    destruct (_ =? _).
    { destruct (error_alike m (d_error fd) Hm H5) as (t & m' & E1 & E2 & S1 & K). rewrite E1, E2. cbn. split; [exact S1|].
      split; [exact (kept_more _ _ _ _ K in_error)|reflexivity]. }
    destruct (_ =? _).
    { destruct (fixed_alike m (d_fix fd) Hm H4) as (t & m' & E1 & E2 & S1 & K). rewrite E1, E2. cbn [bind agrees fst snd]. split; [exact S1|].
      split; [exact (kept_more _ _ _ _ K in_fixed)|reflexivity]. }
    destruct (_ =? _).
    { eapply agrees_bind; [apply (variable_alike stamp stamps m (d_var fd) Hm H1 H2 H3); unfold few in N; lia|].
      intros [m' t] t' (S1 & K & E). cbn [fst snd] in *. subst t'. cbn [agrees fst snd]. split; [exact S1|].
      split; [exact (kept_more _ _ _ _ K in_document)|reflexivity]. }
    cbn. split; [exact Hm|]. split; [apply kept_refl|reflexivity].
  Qed.

End Doc.

(** ** Chains of telegrams *)
Lemma enc_count its t : (List.length (objs its ++ objs_tail t) <= List.length (enc_body its t))%nat.
Proof.
  unfold enc_body. rewrite !app_length. apply Nat.add_le_mono.
  - induction its as [|it its IH]; [cbn; lia|]. unfold objs in *. cbn [flat_map]. rewrite !app_length.
    assert ((List.length (objs_item it) <= List.length (enc_item it))%nat); [|lia].
    destruct it; cbn; lia.
  - destruct t as [[[] b]|]; cbn; lia.
Qed.
Lemma parse_wf f fd r fd' : loaded_frame f -> wf_fd fd -> (List.length (v_records (d_var fd)) <= 252)%nat -> mbus_frame_data_parse f fd = Ok (r, fd') ->
  wf_fd fd' /\ (List.length (v_records (d_var fd')) <= 252)%nat.
Proof.
  intros [p Hc] W N E. pose proof W as (H1 & H2 & H3 & H4 & H5). pose proof Hc as (C1 & C2 & C3 & C4 & C5). unfold DATA_LEN in C1, C5.
  assert (NB : forall k, (k < 252)%nat -> rd (fdata f) k = Ok (nth k (fdata f) 0) /\ is_byte (nth k (fdata f) 0)).
  { intros k Hk. split; [apply rd_ok; lia|apply bytes_nth; [exact C2|lia]]. }
  unfold mbus_frame_data_parse in E.
  destruct (_ =? 0); [|apply ok_inj2 in E; destruct E as [_ <-]; auto].
  destruct (ctrl_info f =? 0x70).
  { destruct (data_size f >? 0).
    - rewrite (proj1 (NB 0%nat ltac:(lia))) in E. cbn [bind] in E. apply ok_inj2 in E. destruct E as [_ <-].
      unfold wf_fd. cbn [d_var d_fix d_error]. split; [|exact N]. repeat (split; [assumption|]). apply NB. lia.
    - apply ok_inj2 in E. destruct E as [_ <-]. unfold wf_fd. cbn [d_var d_fix d_error]. split; [|exact N]. repeat (split; [assumption|]). unfold is_byte. lia. }
  destruct (ctrl_info f =? 0x73).
  { destruct (data_size f =? 0); [apply ok_inj2 in E; destruct E as [_ <-]; auto|].
    apply bind_Ok in E. destruct E as ([r1 df] & E1 & E). apply ok_inj2 in E. destruct E as [_ <-].
    unfold wf_fd. cbn [d_var d_fix d_error]. split; [|exact N]. repeat (split; [assumption|]). split; [|exact H5].
    unfold mbus_data_fixed_parse in E1. destruct (negb _); [apply ok_inj2 in E1; destruct E1 as [_ <-]; exact H4|].
    cbv zeta in E1.
    rewrite (proj1 (NB 0%nat ltac:(lia))), (proj1 (NB 1%nat ltac:(lia))), (proj1 (NB 2%nat ltac:(lia))), (proj1 (NB 3%nat ltac:(lia))),
      (proj1 (NB 4%nat ltac:(lia))), (proj1 (NB 5%nat ltac:(lia))), (proj1 (NB 6%nat ltac:(lia))), (proj1 (NB 7%nat ltac:(lia))),
      (proj1 (NB 8%nat ltac:(lia))), (proj1 (NB 9%nat ltac:(lia))), (proj1 (NB 10%nat ltac:(lia))), (proj1 (NB 11%nat ltac:(lia))),
      (proj1 (NB 12%nat ltac:(lia))), (proj1 (NB 13%nat ltac:(lia))), (proj1 (NB 14%nat ltac:(lia))), (proj1 (NB 15%nat ltac:(lia))) in E1.
    cbn [bind] in E1. apply ok_inj2 in E1. destruct E1 as [_ <-]. unfold fixed_bytes. cbn [x_id x_tx_cnt x_status x_type1 x_type2 x_val1 x_val2].
    assert (Q : forall a b c d, (a < 252)%nat -> (b < 252)%nat -> (c < 252)%nat -> (d < 252)%nat ->
      bytes [nth a (fdata f) 0; nth b (fdata f) 0; nth c (fdata f) 0; nth d (fdata f) 0]).
    { intros a b c d A B C D. repeat (apply Forall_cons; [apply NB; assumption|]). apply Forall_nil. }
    split; [apply Q; lia|]. split; [reflexivity|]. split; [apply Q; lia|]. split; [reflexivity|]. split; [apply Q; lia|]. split; [reflexivity|].
    split; [apply NB; lia|]. split; [apply NB; lia|]. split; apply NB; lia. }
  destruct (ctrl_info f =? 0x72); [|apply ok_inj2 in E; destruct E as [_ <-]; auto].
  destruct (data_size f =? 0); [apply ok_inj2 in E; destruct E as [_ <-]; auto|].
  apply bind_Ok in E. destruct E as ([r1 dv] & E1 & E). apply ok_inj2 in E. destruct E as [_ <-]. unfold wf_fd. cbn [d_var d_fix d_error].
  destruct (Nat.lt_ge_cases (List.length p) 12) as [H|H].
  { unfold mbus_data_variable_parse in E1. rewrite C3, Nat2Z.id in E1. replace (List.length p <? 12)%nat with true in E1 by (symmetry; apply Nat.ltb_lt; exact H).
    apply ok_inj2 in E1. destruct E1 as [_ <-]. cbn [v_header v_records]. split; [|exact N]. auto. }
  destruct (parse_shape f p _ _ _ Hc H E1) as (h & its & t & rest & L & Ep & W1 & W2 & -> & _).
  pose proof (carries_bytes f p Hc) as Bp. rewrite Ep in Bp. apply bytes_app in Bp. destruct Bp as [Bh Bp].
  unfold dvar_of. cbn [v_header v_records]. split.
  - split; [exact Bh|]. split; [exact L|]. split; [apply objs_parsed; assumption|]. auto.
  - pose proof (enc_count its t). rewrite Ep, !app_length in C5. lia.
Qed.

Definition list_ok (o : option (list rec)) : Prop := forall rs, o = Some rs -> Forall parsed_rec rs /\ (List.length rs <= 252)%nat.
Lemma heap_wf f fd h p r fd' h' p' : loaded_frame f -> wf_fd fd -> (List.length (v_records (d_var fd)) <= 252)%nat -> Forall list_ok h ->
  parse_heap f fd h p = Ok (r, fd', h', p') ->
  wf_fd fd' /\ (List.length (v_records (d_var fd')) <= 252)%nat /\ Forall list_ok h'.
Proof.
  intros F W N H E. unfold parse_heap in E. apply bind_Ok in E. destruct E as ([r1 fd1] & E1 & E).
  destruct (parse_wf f fd r1 fd1 F W N E1) as [W1 N1].
  destruct (assigns_record f).
  - destruct (v_records (d_var fd1)) as [|x l] eqn:Er; apply ok_inj in E; injection E as <- <- <- <-.
    + auto. rewrite Er. auto.
    + rewrite Er. split; [exact W1|]. split; [exact N1|]. apply Forall_app. split; [exact H|]. apply Forall_cons; [|apply Forall_nil].
      intros rs Ers. injection Ers as <-. split; [|exact N1]. rewrite <- Er. apply W1.
  - apply ok_inj in E; injection E as <- <- <- <-. auto.
Qed.
Lemma deref_ok h p rs : Forall list_ok h -> deref h p = Ok rs -> Forall parsed_rec rs /\ (List.length rs <= 252)%nat.
Proof.
  intros H. unfold deref. destruct p as [k|]; [|intros E; apply ok_inj in E; subst; split; [constructor|cbn; lia]].
  destruct (nth_error h k) as [o|] eqn:E; [|discriminate]. apply nth_error_In in E. rewrite Forall_forall in H. specialize (H o E).
  destruct o as [l|]; [|discriminate]. intros X. apply ok_inj in X. subst l. apply H. reflexivity.
Qed.
Lemma release_ok : forall h k h', Forall list_ok h -> release h k = Ok h' -> Forall list_ok h'.
Proof.
  induction h as [|o h IH]; intros k h' H E; cbn [release] in E; [discriminate|]. inversion_clear H as [|? ? H1 H2].
  assert (X : forall k', (let* t := release h k' in Ok (o :: t)) = Ok h' -> Forall list_ok h').
  { intros k' X. apply bind_Ok in X. destruct X as (t & X1 & X2). apply ok_inj in X2. subst h'. constructor; [exact H1|]. apply (IH k'); assumption. }
  destruct o as [l|], k as [|k]; try discriminate; try (apply (X k); exact E).
  apply ok_inj in E. subst h'. constructor; [|exact H2]. intros rs Ers. discriminate.
Qed.
Lemma free_ok h p h' : Forall list_ok h -> free_list h p = Ok h' -> Forall list_ok h'.
Proof. intros H. unfold free_list. destruct p as [k|]; [apply release_ok; exact H|]. intros E. apply ok_inj in E. subst. exact H. Qed.

Lemma zero_wf : wf_fd fd_zero.
Proof.
  unfold wf_fd, fd_zero, fixed_bytes. cbn [d_var d_fix d_error v_header v_records x_id x_tx_cnt x_status x_type1 x_type2 x_val1 x_val2].
  assert (is_byte 0) by (unfold is_byte; lia). assert (B : bytes [0; 0; 0; 0]) by (repeat (apply Forall_cons; [assumption|]); apply Forall_nil).
  split; [apply Forall_forall; intros x Hx; apply repeat_spec in Hx; subst; assumption|].
  split; [reflexivity|]. split; [constructor|]. split; [|assumption]. exact (conj B (conj eq_refl (conj B (conj eq_refl (conj B (conj eq_refl (conj H (conj H (conj H H))))))))).
Qed.

Section Chain.
  Variable stamp : Z -> option (list Z).
  Hypothesis stamps : forall i t, stamp i = Some t -> ctext 21 t.

  Lemma chain_alike m0 : forall fs m fd h p d1 d2 rcnt fcnt, sized m -> kept xml_arrays m0 m -> alike d1 d2 -> Forall loaded_frame fs -> wf_fd fd ->
    (List.length (v_records (d_var fd)) <= 252)%nat -> Forall list_ok h -> 0 <= rcnt -> rcnt + 252 * Z.of_nat (List.length fs) <= 256 ^ 8 ->
    0 <= fcnt + 1 -> fcnt + Z.of_nat (List.length fs) <= 256 ^ 8 ->
    agrees (same_answer xml_arrays m0) (s_chain stamp m fs fd h p d1 rcnt fcnt) (xml_chain stamp fs fd h p d2 rcnt fcnt).
  Proof.
    induction fs as [|f fs IH]; intros m fd h p d1 d2 rcnt fcnt Hm K A F W N Hh R1 R2 R3 R4; cbn [s_chain xml_chain].
    { pose proof (close_alike m0 xml_arrays m d1 d2 Hm K A) as X. clear - X.
      destruct (doc_append d1 XML_CLOSE) as [a|], (doc_append d2 XML_CLOSE) as [b|]; cbn [bind agrees] in *; try tauto.
      - destruct (s_done a) as [t|]; cbn [bind agrees] in *; [|tauto]. unfold same_answer. cbn [fst snd] in *. destruct X as (X1 & X2 & ->). auto.
      - destruct (s_done a) as [t|]; cbn [bind agrees] in *; tauto. }
    inversion_clear F as [|? ? F1 F2]. cbn [List.length] in R2, R4. rewrite Nat2Z.inj_succ in R2, R4.
    destruct (parse_heap f fd h p) as [[[[r fd'] h'] p']|] eqn:Ep; [|exact I]. cbn [bind].
    destruct (heap_wf _ _ _ _ _ _ _ _ F1 W N Hh Ep) as (W' & N' & Hh').
    destruct (r =? -1). { cbn [agrees]. unfold same_answer. cbn [fst snd]. auto. }
    destruct (deref h' p') as [rs|] eqn:Ed; [|exact I]. cbn [bind]. destruct (deref_ok _ _ _ Hh' Ed) as [P L].
    eapply agrees_bind; [apply (records_alike stamp stamps rs m m d1 d2 rcnt fcnt); try assumption; try lia; apply kept_refl|].
    intros [[m2 d3] i] [d4 j] (S2 & K2 & A2 & E2 & E3). cbn [fst snd] in *. subst i j.
    destruct (free_list h' p') as [h2|] eqn:Ef; [|exact I]. cbn [bind].
    apply IH; try assumption; try lia.
    - apply (kept_trans _ _ m); [exact K|apply (kept_more _ _ _ _ K2 in_record)].
    - apply (free_ok _ _ _ Hh' Ef).
  Qed.

  Lemma frame_alike m f next : sized m -> loaded_frame f -> Forall loaded_frame next -> few (List.length next) ->
    agrees (same_answer xml_arrays m) (s_frame_xml stamp m f next) (mbus_frame_xml stamp f next).
  Proof.
    intros Hm F Fn N. unfold s_frame_xml, mbus_frame_xml. unfold few in N.
    destruct (parse_heap f fd_zero [] None) as [[[[r fd] h] p]|] eqn:Ep; [|exact I]. cbn [bind].
    destruct (heap_wf _ _ _ _ _ _ _ _ F zero_wf ltac:(cbn; lia) ltac:(constructor) Ep) as (W & N' & Hh). clear Ep.
    pose proof W as (H1 & H2 & H3 & H4 & H5).
    destruct (r =? -1). { cbn [agrees]. unfold same_answer. cbn [fst snd]. split; [exact Hm|]. split; [apply kept_refl|reflexivity]. }
    destruct (_ =? _).
    { destruct (error_alike m (d_error fd) Hm H5) as (t & m' & E1 & E2 & S1 & K). rewrite E1, E2. cbn [bind agrees]. split; [exact S1|].
      split; [exact (kept_more _ _ _ _ K in_error)|reflexivity]. }
    destruct (_ =? _).
    { destruct (fixed_alike m (d_fix fd) Hm H4) as (t & m' & E1 & E2 & S1 & K). rewrite E1, E2. cbn [bind agrees]. split; [exact S1|].
      split; [exact (kept_more _ _ _ _ K in_fixed)|reflexivity]. }
    destruct (_ =? _). 2:{ cbn [agrees]. split; [exact Hm|]. split; [apply kept_refl|reflexivity]. }
    cbv zeta. set (fc := match next with [] => -1 | _ => 0 end). assert (Hfc : -1 <= fc <= 0) by (unfold fc; destruct next; lia). clearbody fc.
    eapply agrees_bind; [apply start_alike; assumption|]. intros [m1 d1] d2 (S1 & K1 & A1). cbn [fst snd] in *.
    destruct (deref h p) as [rs|] eqn:Ed; [|exact I]. cbn [bind]. destruct (deref_ok _ _ _ Hh Ed) as [P L].
    eapply agrees_bind; [apply (records_alike stamp stamps rs m1 m1 d1 d2 0 fc); try assumption; try lia; apply kept_refl|].
    intros [[m2 d3] i] [d4 j] (S2 & K2 & A2 & E2 & E3). cbn [fst snd] in *. subst i j.
    destruct (free_list h p) as [h2|] eqn:Ef; [|exact I]. cbn [bind].
    apply chain_alike; try assumption; try lia.
    - apply (kept_trans _ _ m1); [apply (kept_more _ _ _ _ K1 in_header)|apply (kept_more _ _ _ _ K2 in_record)].
    - apply (free_ok _ _ _ Hh Ef).
  Qed.
End Chain.

(** ** Normalised records *)
Lemma parse_fixed_alike m st u data : sized m ->
  agrees (same_answer [S_fixed_function] m) (s_parse_fixed m st u data) (mbus_parse_fixed_record st u data).
Proof.
  intros Hm. unfold s_parse_fixed. destruct (fixed_function_gives m st Hm) as (m1 & p & E & S1 & K & T & _). rewrite E. cbn [bind]. rewrite T. cbn [bind].
  unfold mbus_parse_fixed_record. destruct (if _ =? _ then _ else _) as [v|]; [|exact I]. cbn [bind].
  destruct (mbus_fixed_normalize u v) as [[[ret uu] x] q]. destruct (negb (ret =? 0)); cbn [bind agrees]; unfold same_answer; cbn [fst snd]; auto.
Qed.
Lemma parse_variable_alike m r : sized m ->
  agrees (fun a b => sized (fst (fst a)) /\ kept [S_function] m (fst (fst a)) /\ (snd (fst a), snd a) = b) (s_parse_variable m r) (mbus_parse_variable_record r).
Proof.
  intros Hm. unfold s_parse_variable. destruct ((r_dif r =? 0x0F) || (r_dif r =? 0x1F)) eqn:D.
  - destruct (mbus_parse_variable_record r) as [[o l]|]; [|exact I]. cbn. split; [exact Hm|]. split; [apply kept_refl|reflexivity].
  - destruct (function_gives m r Hm) as (m1 & p & E & S1 & K & T & _). rewrite E. cbn [bind]. rewrite T. cbn [bind].
    unfold mbus_parse_variable_record. rewrite D. destruct (mbus_data_record_storage_number r); [|exact I]. cbn [bind].
    destruct (mbus_data_record_tariff r); [|exact I]. cbn [bind]. destruct (mbus_data_record_device r); [|exact I]. cbn [bind].
    destruct (mbus_variable_value_decode r) as [e|]; [|exact I]. cbn [bind]. destruct (negb _); [cbn; auto|].
    destruct (mbus_vib_unit_normalize r (e_real e)) as [[[[u x] q]|]|]; [| |exact I]; cbn [bind agrees fst snd]; auto.
Qed.

Lemma encode_opt_same loc o : List.length loc = 768%nat ->
  agrees (fun a e => List.length a = 768%nat /\ c_str a = Ok e) (encode_opt_at loc o) (encoded_opt 768 o).
Proof.
  intros L. destruct o as [s|]; cbn [encode_opt_at encoded_opt].
  - pose proof (encode_same s loc ltac:(lia)) as X. rewrite L in *. destruct (encoded 768 s) as [e|].
    + destruct X as (b & E & Lb & C). rewrite E. cbn. auto.
    + rewrite X. exact I.
  - rewrite wr_ok by lia. cbn [agrees]. rewrite upd_length. split; [exact L|]. destruct loc; [discriminate L|]. reflexivity.
Qed.

Lemma xml_loop_any M : forall s dst len, (len < M <= List.length dst)%nat ->
  exists d n, xml_loop (s ++ [0]) dst len M = Ok (d, n) /\ (n < M)%nat /\ List.length d = List.length dst.
Proof.
  assert (Ent : forall c e, xml_entity c = Some e -> (1 <= List.length e <= 6)%nat).
  { intros c e. unfold xml_entity. repeat (destruct (_ =? _); [intros H; injection H as <-; cbn; lia|]). discriminate. }
  induction s as [|c s IH]; intros dst len H; cbn [app xml_loop].
  - destruct (Nat.ltb_spec (len + 6) M); [change (0 =? 0) with true; cbv iota|]; exists dst, len; (split; [reflexivity|split; [lia|reflexivity]]).
  - destruct (Nat.ltb_spec (len + 6) M) as [G|G]; [|exists dst, len; split; [reflexivity|split; [lia|reflexivity]]].
    destruct (c =? 0); [exists dst, len; split; [reflexivity|split; [lia|reflexivity]]|].
    assert (One : forall v, exists d n, (let* d := wr dst len v in xml_loop (s ++ [0]) d (len + 1) M) = Ok (d, n) /\ (n < M)%nat /\ List.length d = List.length dst).
    { intros v. rewrite wr_ok by lia. cbn [bind]. destruct (IH (upd dst len v) (len + 1)%nat ltac:(rewrite upd_length; lia)) as (d & n & E & N & L).
      exists d, n. rewrite upd_length in L. auto. }
    destruct (c_iscntrl c); [apply One|]. destruct (xml_entity c) as [e|] eqn:Ee; [|apply One].
    pose proof (Ent c e Ee) as Le. unfold snprintf_s. destruct (M - len)%nat as [|k] eqn:Ek; [lia|].
    rewrite (firstn_all2 e) by lia. rewrite put_list_ok by (rewrite app_length; cbn [List.length]; lia). cbn [bind].
    match goal with |- context [xml_loop (s ++ [0]) ?x _ M] => set (y := x) end.
    assert (Ly : List.length y = List.length dst). { unfold y. rewrite !app_length, firstn_length, skipn_length, ?app_length. cbn [List.length]. lia. }
    destruct (IH y (len + List.length e)%nat ltac:(lia)) as (d & n & E & N & L). exists d, n. rewrite <- Ly. auto.
Qed.
Lemma encoded_any s : exists e, encoded 768 s = Ok e.
Proof.
  unfold encoded, mbus_str_xml_encode. destruct (xml_loop_any 768 s (repeat 0 768) 0 ltac:(rewrite repeat_length; lia)) as (d & n & E & N & L).
  rewrite E. cbn [bind]. rewrite repeat_length in L. rewrite wr_ok by lia. cbn [bind]. eauto.
Qed.
Lemma encode_opt_any loc o : List.length loc = 768%nat ->
  exists b e, encode_opt_at loc o = Ok b /\ List.length b = 768%nat /\ c_str b = Ok e /\ encoded_opt 768 o = Ok e.
Proof.
  intros L. pose proof (encode_opt_same loc o L) as X.
  assert (E : exists e, encoded_opt 768 o = Ok e) by (destruct o; [apply encoded_any|eexists; reflexivity]).
  destruct E as [e E]. rewrite E in X. destruct (encode_opt_at loc o) as [b|]; [|destruct X]. destruct X. exists b, e. auto.
Qed.

Definition lines_rel (a : list Z * doc) (d : doc) : Prop := List.length (fst a) = 768%nat /\ alike (snd a) d.
Lemma norm_lines_alike loc d1 d2 n : List.length loc = 768%nat -> alike d1 d2 ->
  agrees lines_rel (s_norm_lines loc d1 n) (let* ls := norm_lines n in doc_lines d2 ls).
Proof.
  intros L A. unfold s_norm_lines, norm_lines.
  destruct (encode_opt_any loc (Some (n_function n)) L) as (b1 & e1 & E1 & L1 & C1 & D1). rewrite E1. cbn [bind]. rewrite C1. cbn [bind].
  cbn [encoded_opt] in D1. rewrite D1. cbn [bind].
  destruct (encode_opt_any b1 (n_unit n) L1) as (b2 & e2 & E2 & L2 & C2 & D2).
  destruct (encode_opt_any b2 (n_quantity n) L2) as (b3 & e3 & E3 & L3 & C3 & D3).
  rewrite D2, D3. cbn [bind].
  assert (V : exists b v, (match n_value n with
     | VNum x => Ok (b3, print_f x)
     | VStr s _ => let* loc := encode_opt_at b3 (Some s) in let* t := c_str loc in Ok (loc, t)
     end) = Ok (b, v) /\ List.length b = 768%nat /\ (match n_value n with VNum x => Ok (print_f x) | VStr s _ => encoded 768 s end) = Ok v).
  { destruct (n_value n) as [x|s k]; [eauto|]. destruct (encode_opt_any b3 (Some s) L3) as (b4 & e4 & E4 & L4 & C4 & D4).
    rewrite E4. cbn [bind]. rewrite C4. cbn [bind]. eauto. }
  destruct V as (b & v & V1 & V2 & V3). rewrite V3. cbn [bind app doc_lines].
  eapply agrees_bind; [apply append_alike; exact A|]. intros x1 y1 A1.
  eapply agrees_bind; [apply append_alike; exact A1|]. intros x2 y2 A2.
  assert (Rest : forall x y, alike x y -> agrees lines_rel
    (let* loc := encode_opt_at b1 (n_unit n) in let* unit := c_str loc in
     let* d := doc_append x (cstr "        <Unit>" ++ unit ++ cstr "</Unit>" ++ nl) in
     let* loc := encode_opt_at loc (n_quantity n) in let* quantity := c_str loc in
     let* d := doc_append d (cstr "        <Quantity>" ++ quantity ++ cstr "</Quantity>" ++ nl) in
     let* (loc, value) :=
       (match n_value n with
        | VNum x => Ok (loc, print_f x)
        | VStr s _ => let* loc := encode_opt_at loc (Some s) in let* t := c_str loc in Ok (loc, t)
        end) in
     let* d := doc_append d (cstr "        <Value>" ++ value ++ cstr "</Value>" ++ nl) in Ok (loc, d))
    (doc_lines y [cstr "        <Unit>" ++ e2 ++ cstr "</Unit>" ++ nl; cstr "        <Quantity>" ++ e3 ++ cstr "</Quantity>" ++ nl;
                  cstr "        <Value>" ++ v ++ cstr "</Value>" ++ nl])).
  { intros x y Axy. cbn [doc_lines]. rewrite E2. cbn [bind]. rewrite C2. cbn [bind].
    eapply agrees_bind; [apply append_alike; exact Axy|]. intros x3 y3 A3. rewrite E3. cbn [bind]. rewrite C3. cbn [bind].
    eapply agrees_bind; [apply append_alike; exact A3|]. intros x4 y4 A4. rewrite V1. cbn [bind].
    eapply agrees_bind; [apply append_alike; exact A4|]. intros x5 y5 A5. cbn [agrees]. split; assumption. }
  destruct (0 <=? n_tariff n).
  - cbn [app doc_lines]. pose proof (append_alike x2 y2 (cstr "        <Tariff>" ++ fmt_d (n_tariff n) ++ cstr "</Tariff>" ++ nl) A2) as X.
    destruct (doc_append x2 _) as [x3|], (doc_append y2 _) as [y3|]; cbn [agrees bind] in *; try tauto.
    eapply agrees_bind; [apply append_alike; exact X|]. intros x4 y4 A4. apply Rest. exact A4.
  - cbn [app bind]. apply Rest. exact A2.
Qed.

Lemma lines_app d l1 l2 : doc_lines d (l1 ++ l2) = let* d := doc_lines d l1 in doc_lines d l2.
Proof.
  revert d. induction l1 as [|x l1 IH]; intros d; cbn [app doc_lines bind]; [reflexivity|]. destruct (doc_append d x); cbn [bind]; [apply IH|reflexivity].
Qed.

Lemma norm_records_alike m0 : forall rs m loc d1 d2 i lost, sized m -> kept [S_function] m0 m -> List.length loc = 768%nat -> alike d1 d2 ->
  agrees (fun a b => sized (fst (fst a)) /\ kept [S_function] m0 (fst (fst a)) /\ alike (snd (fst a)) (fst b) /\ snd a = snd b)
    (s_norm_records m loc d1 rs i lost) (norm_records d2 rs i lost).
Proof.
  induction rs as [|r rs IH]; intros m loc d1 d2 i lost Hm K L A; cbn [s_norm_records norm_records]; [cbn; auto|].
  eapply agrees_bind; [apply parse_variable_alike; exact Hm|]. intros [[m1 o] l] [o' l'] (S1 & K1 & E). cbn [fst snd] in *. injection E as <- <-.
  destruct (grow_alike m1 d1 d2 A) as (m2 & E & A1 & Eb). rewrite E. set (d1' := fst (s_grow d1 m1)) in *.
  assert (S2 : sized m2) by (intros s; rewrite Eb; apply S1).
  assert (K2 : kept [S_function] m0 m2) by (intros s H; rewrite Eb, K1 by exact H; apply K, H).
  unfold record_lines.
  set (head := cstr "    <DataRecord id=""" ++ fmt_d i ++ cstr """>" ++ nl). set (foot := cstr "    </DataRecord>" ++ nl ++ nl).
  pose proof (append_alike d1' (doc_grow d2) head A1) as X.
  destruct o as [n|].
  - destruct (norm_lines n) as [ls|] eqn:En; cbn [bind].
    + cbn [doc_lines]. destruct (doc_append d1' head) as [x1|], (doc_append (doc_grow d2) head) as [y1|]; cbn [agrees bind] in *; try tauto.
      rewrite lines_app. pose proof (norm_lines_alike loc x1 y1 n L X) as Y. rewrite En in Y. cbn [bind] in Y.
      destruct (s_norm_lines loc x1 n) as [[loc2 x2]|], (doc_lines y1 ls) as [y2|]; cbn [agrees bind] in *; try tauto.
      destruct Y as [L2 A2]. cbn [fst snd] in L2, A2. cbn [doc_lines].
      pose proof (append_alike x2 y2 foot A2) as Q.
      destruct (doc_append x2 foot) as [x3|], (doc_append y2 foot) as [y3|]; cbn [agrees bind] in *; try tauto. apply IH; assumption.
    + destruct (doc_append d1' head) as [x1|] eqn:E1; cbn [bind]; [|exact I].
      pose proof (norm_lines_alike loc x1 x1 n L) as Y. rewrite En in Y. cbn [bind] in Y.
      destruct (doc_append (doc_grow d2) head) as [y1|]; cbn [agrees] in X; [|destruct X].
      pose proof (norm_lines_alike loc x1 y1 n L X) as Z. rewrite En in Z. cbn [bind] in Z.
      destruct (s_norm_lines loc x1 n) as [[loc2 x2]|]; cbn [agrees bind] in *; tauto.
  - cbn [bind app doc_lines]. destruct (doc_append d1' head) as [x1|], (doc_append (doc_grow d2) head) as [y1|]; cbn [agrees bind] in *; try tauto.
    pose proof (append_alike x1 y1 foot X) as Q.
    destruct (doc_append x1 foot) as [x3|], (doc_append y1 foot) as [y3|]; cbn [agrees bind] in *; try tauto. apply IH; assumption.
Qed.

Definition norm_arrays : list slot := fixed_arrays ++ S_function :: header_arrays.
Lemma variable_norm_alike m dv : sized m -> bytes (v_header dv) -> List.length (v_header dv) = 12%nat ->
  agrees (same_answer norm_arrays m) (s_variable_norm m dv) (mbus_data_variable_xml_normalized dv).
Proof.
  intros Hm Hb Hl. unfold s_variable_norm, mbus_data_variable_xml_normalized.
  eapply agrees_bind; [apply start_alike; assumption|]. intros [m1 d1] d2 (S1 & K1 & A1). cbn [fst snd] in *.
  eapply agrees_bind; [apply (norm_records_alike m1 (v_records dv) m1 (repeat 0 768) d1 d2 0 0); try assumption; [apply kept_refl|apply repeat_length]|].
  intros [[m2 d3] i] [d4 j] (S2 & K2 & A2 & E2). cbn [fst snd] in *. subst j.
  assert (K : kept norm_arrays m m2).
  { apply (kept_trans _ _ m1).
    - apply (kept_more _ _ _ _ K1). intros s H. unfold norm_arrays. apply in_or_app. right. right. exact H.
    - apply (kept_more _ _ _ _ K2). intros s [<-|[]]. unfold norm_arrays. apply in_or_app. right. left. reflexivity. }
  pose proof (close_alike m norm_arrays m2 d3 d4 S2 K A2) as X. clear - X.
  destruct (doc_append d3 XML_CLOSE) as [a|], (doc_append d4 XML_CLOSE) as [b|]; cbn [bind agrees] in *; try tauto.
  - destruct (s_done a) as [t|]; cbn [bind agrees] in *; [|tauto]. unfold same_answer. cbn [fst snd] in *. destruct X as (X1 & X2 & ->). auto.
  - destruct (s_done a) as [t|]; cbn [bind agrees] in *; tauto.
Qed.
Lemma data_norm_alike m fd : sized m -> wf_fd fd -> agrees (same_answer norm_arrays m) (s_data_norm m fd) (mbus_frame_data_xml_normalized fd).
Proof.
  intros Hm (H1 & H2 & H3 & H4 & H5). unfold s_data_norm, mbus_frame_data_xml_normalized.
  destruct (_ =? _).
  { destruct (fixed_alike m (d_fix fd) Hm H4) as (t & m' & E1 & E2 & S1 & K). rewrite E1, E2. cbn [bind agrees]. split; [exact S1|].
    split; [|reflexivity]. apply (kept_more _ _ _ _ K). intros s H. apply in_or_app. left. exact H. }
  destruct (_ =? _).
  { eapply agrees_bind; [apply variable_norm_alike; assumption|]. intros [m' [t l]] [t' l'] (S1 & K & E). cbn [fst snd] in *. injection E as <- <-.
    cbn [agrees]. split; [exact S1|]. split; [exact K|reflexivity]. }
  cbn. split; [exact Hm|]. split; [apply kept_refl|reflexivity].
Qed.

(** ** The remaining text functions *)
Lemma prefix_gives m e : sized m -> CBase.in_int e = true -> gives m [S_prefix] [S_prefix] (mbus_unit_prefix e) (s_prefix m e).
Proof.
  intros H B. apply (sprint_gives m S_prefix 60); [exact H| |cbn [size]; lia].
  unfold CBase.in_int, INT_MAX, INT_MIN in B. unfold mbus_unit_prefix.
  assert (C : ctext 60 (cstr "1e" ++ fmt_d e ++ cstr " ")).
  { apply (ctext_le (2 + (48 + 2))); [|lia]. apply ctext_line; [vmr|apply num_ctext; lia|vmr]. }
  apply switch_ctextb; [vm_compute; reflexivity|exact C].
Qed.
Lemma address_gives m f : sized m -> loaded_frame f ->
  match mbus_frame_get_secondary_address f with
  | Ok (Some t) => gives m [S_address] [S_address] t (s_address m f)
  | Ok None => s_address m f = Ok (m, Null)
  | UB => s_address m f = UB
  end.
Proof.
  intros Hm F. unfold s_address. destruct (mbus_frame_get_secondary_address f) as [[t|]|] eqn:E; cbn [bind]; try reflexivity.
  apply (sprint_gives m S_address 24); [exact Hm| |cbn [size]; lia].
  unfold mbus_frame_get_secondary_address in E. destruct (negb _); [discriminate|]. apply bind_Ok in E. destruct E as ([r fd] & E1 & E).
  destruct (parse_wf f fd_zero r fd F zero_wf ltac:(cbn; lia) E1) as ((Hb & Hl & _) & _).
  destruct (r =? -1); [discriminate|]. cbv zeta in E. set (h := v_header (d_var fd)) in *.
  assert (B : forall k, (k < 12)%nat -> rd h k = Ok (nth k h 0) /\ is_byte (nth k h 0)).
  { intros k Hk. split; [apply rd_ok; lia|apply bytes_nth; [exact Hb|lia]]. }
  rewrite bcd_hex_spec in E by (try assumption; lia). cbn [bind] in E.
  rewrite (proj1 (B 4%nat ltac:(lia))), (proj1 (B 5%nat ltac:(lia))), (proj1 (B 6%nat ltac:(lia))), (proj1 (B 7%nat ltac:(lia))) in E. cbn [bind] in E.
  apply ok_inj in E. injection E as <-.
  assert (Hid : 0 <= SCodec.le (firstn 4 h) < 16 ^ 8).
  { pose proof (le_bounds (firstn 4 h) (bytes_firstn 4 _ Hb)) as X. rewrite firstn_length, Nat.min_l in X by lia. change (Z.of_nat 4) with 4 in X. lia. }
  assert (C8 : ctext 16 (zpad 8 (fmt_X (SCodec.le (firstn 4 h))))).
  { assert (X : ctext 16 (fmt_X (SCodec.le (firstn 4 h)))) by (apply hex_ctext; lia). unfold zpad. set (l := fmt_X _) in *. destruct X as [X1 X2].
    split; [apply Forall_app; split; [|exact X1]|rewrite app_length, repeat_length; lia].
    apply Forall_forall. intros c Hc. apply repeat_spec in Hc. subst c. lia. }
  apply (ctext_le (16 + (2 + (2 + (2 + 2))))); [|lia].
  apply ctext_app; [exact C8|]. apply ctext_app; [apply hex2_ctext, B; lia|]. apply ctext_app; [apply hex2_ctext, B; lia|].
  apply ctext_app; apply hex2_ctext, B; lia.
Qed.

Lemma zpad_ctext w n t : ctext n t -> (w <= n)%nat -> ctext n (zpad w t).
Proof.
  intros [X1 X2] H. unfold zpad. split; [apply Forall_app; split; [|exact X1]|rewrite app_length, repeat_length; lia].
  apply Forall_forall. intros c Hc. apply repeat_spec in Hc. subst c. lia.
Qed.
Lemma error_int_gives m e : sized m -> 0 <= e < 2 ^ 31 -> gives m [S_error] [S_error] (mbus_data_error_lookup e) (s_error m e).
Proof.
  intros H B. apply (sprint_gives m S_error 60); [exact H| |cbn [size]; lia]. unfold mbus_data_error_lookup.
  assert (C : ctext 60 (cstr "Unknown error (0x" ++ fmt_X2 e ++ cstr ")")).
  { apply (ctext_le (20 + (16 + 20))); [|lia]. apply ctext_line; [vmr| |vmr]. apply zpad_ctext; [apply hex_ctext; lia|lia]. }
  apply switch_ctextb; [vm_compute; reflexivity|exact C].
Qed.

(** ** Any call *)
(** The arrays a function writes, and those it answers with. *)
Definition writes (f : fn) : list slot :=
  match f with
  | F_decode_manufacturer => [S_maker]
  | F_product_name => [S_product]
  | F_variable_medium => [S_medium]
  | F_fixed_medium => [S_fixed_medium]
  | F_fixed_unit => [S_fixed_unit]
  | F_fixed_function => [S_fixed_function]
  | F_unit_prefix => [S_prefix]
  | F_vif_unit => [S_vif; S_prefix]
  | F_vib_unit => vib_arrays
  | F_error => [S_error]
  | F_record_unit => S_unit :: vib_arrays
  | F_record_value => [S_value; S_decode]
  | F_record_function => [S_function]
  | F_header_xml => header_arrays
  | F_secondary_address => [S_address]
  | F_data_xml | F_frame_xml => xml_arrays
  | F_data_xml_normalized => norm_arrays
  | F_parse_fixed_record => [S_fixed_function]
  | F_parse_variable_record => [S_function]
  end.
Definition homes (f : fn) : list slot :=
  match f with
  | F_decode_manufacturer => [S_maker]
  | F_product_name => [S_product]
  | F_variable_medium => [S_medium]
  | F_fixed_medium => [S_fixed_medium]
  | F_fixed_unit => [S_fixed_unit]
  | F_fixed_function => [S_fixed_function]
  | F_unit_prefix => [S_prefix]
  | F_vif_unit => [S_vif]
  | F_vib_unit => vib_home
  | F_error => [S_error]
  | F_record_unit => [S_unit]
  | F_record_value => [S_value]
  | F_record_function => [S_function]
  | F_header_xml => [S_header]
  | F_secondary_address => [S_address]
  | F_data_xml | F_frame_xml | F_data_xml_normalized | F_parse_fixed_record | F_parse_variable_record => []
  end.

(** The call answers as [plain] says, whatever the arrays and the unwritten memory contain. *)
Definition answers (m : smem) (x : ask) : Prop :=
  match plain x with
  | Ok v => exists m' a, call m x = Ok (m', a) /\ read m' a = Ok v /\ sized m' /\ kept (writes (fn_of x)) m m' /\
              (forall s, a = Words (At s) -> In s (homes (fn_of x)))
  | UB => call m x = UB
  end.

Lemma words_gives m L H t x : gives m L H t x ->
  exists m' a, words x = Ok (m', a) /\ read m' a = Ok (Text (Some t)) /\ sized m' /\ kept L m m' /\ (forall s, a = Words (At s) -> In s H).
Proof.
  intros (m' & p & E & S1 & K & T & P). exists m', (Words p). rewrite E. split; [reflexivity|]. split.
  { cbn [read]. destruct p as [|t'|s]; [discriminate T|cbn in *; congruence|]. rewrite T. reflexivity. }
  split; [exact S1|]. split; [exact K|]. intros s Es. injection Es as ->. apply P. reflexivity.
Qed.

Lemma own_agrees {A} L m (x : res (smem * A)) (y : res A) (g : A -> reading) H : agrees (same_answer L m) x y ->
  match (let* o := y in Ok (g o)) with
  | Ok v => exists m' a, (let* (m, o) := x in Ok (m, Own (g o))) = Ok (m', a) /\ read m' a = Ok v /\ sized m' /\ kept L m m' /\
              (forall s, a = Words (At s) -> In s H)
  | UB => (let* (m, o) := x in Ok (m, Own (g o))) = UB
  end.
Proof.
  destruct x as [[m' a]|], y as [b|]; cbn [agrees bind]; try tauto. intros (S1 & K & E). cbn [fst snd] in *. subst a.
  exists m', (Own (g b)). split; [reflexivity|]. split; [reflexivity|]. split; [exact S1|]. split; [exact K|]. intros s Es. discriminate.
Qed.

Lemma call_answers m x : sized m -> well x -> answers m x.
Proof.
  intros Hm W. unfold answers. destruct x; cbn [plain call fn_of writes homes well] in *; unfold said.
  - destruct W as [W1 W2]. destruct (maker_ctext byte1 byte2 W1 W2) as (man & E & _). rewrite E. cbn [bind].
    apply words_gives, (maker_gives m byte1 byte2 man Hm W1 W2 E).
  - destruct W as [W1 W2]. rewrite !rd_ok by lia. cbn [bind]. apply words_gives, product_gives; assumption.
  - apply words_gives, medium_gives; assumption.
  - apply words_gives, fixed_medium_gives; assumption.
  - apply words_gives, fixed_unit_gives; assumption.
  - apply words_gives, fixed_function_gives; assumption.
  - apply words_gives, prefix_gives; assumption.
  - apply words_gives, vif_gives; assumption.
  - destruct (vib_gives m r Hm W) as (u & E & _ & G). rewrite E. cbn [bind]. apply words_gives, G.
  - apply words_gives, error_int_gives; assumption.
  - destruct (unit_gives m r Hm W) as (u & E & _ & G). rewrite E. cbn [bind]. apply words_gives, G.
  - destruct (value_gives m r Hm W) as (u & E & _ & G). rewrite E. cbn [bind]. apply words_gives, G.
  - apply words_gives, function_gives; assumption.
  - destruct W as [W1 W2]. destruct (header_gives m header Hm W1 W2) as (t & E & _ & G). rewrite E. cbn [bind]. apply words_gives, G.
  - pose proof (address_gives m f Hm W) as G. destruct (mbus_frame_get_secondary_address f) as [[t|]|]; cbn [bind].
    + apply words_gives, G.
    + rewrite G. exists m, (Words Null). split; [reflexivity|]. split; [reflexivity|]. split; [exact Hm|]. split; [apply kept_refl|].
      intros s Es. discriminate.
    + rewrite G. reflexivity.
  - destruct W as (W1 & W2 & W3). apply own_agrees. apply data_alike; assumption.
  - destruct W as (W1 & W2 & W3 & W4). apply (own_agrees xml_arrays m _ _ Frames). apply frame_alike; assumption.
  - pose proof (data_norm_alike m fd Hm W) as G. destruct (s_data_norm m fd) as [[m' [o l]]|], (mbus_frame_data_xml_normalized fd) as [[o' l']|]; cbn [agrees bind] in *; try tauto.
    destruct G as (S1 & K & E). cbn [fst snd] in *. injection E as <- <-. exists m', (Own (Normed o l)). split; [reflexivity|]. split; [reflexivity|].
    split; [exact S1|]. split; [exact K|]. intros s Es. discriminate.
  - apply (own_agrees [S_fixed_function] m _ _ (fun o => Normal o false)). apply parse_fixed_alike; assumption.
  - pose proof (parse_variable_alike m r Hm) as G. destruct (s_parse_variable m r) as [[[m' o] l]|], (mbus_parse_variable_record r) as [[o' l']|]; cbn [agrees bind] in *; try tauto.
    destruct G as (S1 & K & E). cbn [fst snd] in *. injection E as <- <-. exists m', (Own (Normal o l)). split; [reflexivity|]. split; [reflexivity|].
    split; [exact S1|]. split; [exact K|]. intros s Es. discriminate.
Qed.

Lemma call_sized m x m' a : sized m -> well x -> call m x = Ok (m', a) -> sized m' /\ kept (writes (fn_of x)) m m' /\
  plain x = read m' a /\ (exists v, read m' a = Ok v) /\ (forall s, a = Words (At s) -> In s (homes (fn_of x))).
Proof.
  intros Hm W E. pose proof (call_answers m x Hm W) as X. unfold answers in X. destruct (plain x) as [v|]; [|congruence].
  destruct X as (m1 & a1 & E1 & R & S1 & K & H). rewrite E in E1. apply ok_inj2 in E1. destruct E1 as [<- <-]. rewrite R. eauto 8.
Qed.
Lemma calls_sized : forall xs m m', sized m -> Forall well xs -> calls m xs = Ok m' -> sized m'.
Proof.
  induction xs as [|x xs IH]; intros m m' Hm W E; cbn [calls] in E; [apply ok_inj in E; subst; exact Hm|].
  inversion_clear W as [|? ? W1 W2]. apply bind_Ok in E. destruct E as ([m1 a] & E1 & E).
  destruct (call_sized m x m1 a Hm W1 E1) as (S1 & _). apply (IH m1 m' S1 W2 E).
Qed.
Lemma loaded_sized d : sized (loaded d).
Proof. intros s. cbn [loaded buf]. apply repeat_length. Qed.

(** The table of the specification covers everything that is written. *)
Definition fns : list fn :=
  [F_decode_manufacturer; F_product_name; F_variable_medium; F_fixed_medium; F_fixed_unit; F_fixed_function; F_unit_prefix;
   F_vif_unit; F_vib_unit; F_error; F_record_unit; F_record_value; F_record_function; F_header_xml; F_secondary_address;
   F_data_xml; F_frame_xml; F_data_xml_normalized; F_parse_fixed_record; F_parse_variable_record].
Lemma fns_all f : In f fns. Proof. destruct f; cbn; tauto. Qed.
Definition table_ok (f g : fn) : bool :=
  if in_dec fn_dec g (spoilers f) then true else forallb (fun s => if in_dec slot_dec s (writes g) then false else true) (homes f).
Lemma table_covers f g s : ~ In g (spoilers f) -> In s (homes f) -> ~ In s (writes g).
Proof.
  assert (T : forallb (fun f => forallb (table_ok f) fns) fns = true) by (vm_compute; reflexivity).
  rewrite forallb_forall in T. specialize (T f (fns_all f)). rewrite forallb_forall in T. specialize (T g (fns_all g)).
  unfold table_ok in T. intros N H. destruct (in_dec fn_dec g (spoilers f)); [contradiction|]. rewrite forallb_forall in T. specialize (T s H).
  destruct (in_dec slot_dec s (writes g)); [discriminate|assumption].
Qed.
Lemma calls_keep f s : forall xs m m', sized m -> Forall well xs -> In s (homes f) -> (forall x, In x xs -> ~ In (fn_of x) (spoilers f)) ->
  calls m xs = Ok m' -> buf m' s = buf m s.
Proof.
  induction xs as [|x xs IH]; intros m m' Hm W H N E; cbn [calls] in E; [apply ok_inj in E; subst; reflexivity|].
  inversion_clear W as [|? ? W1 W2]. apply bind_Ok in E. destruct E as ([m1 a] & E1 & E).
  destruct (call_sized m x m1 a Hm W1 E1) as (S1 & K & _).
  rewrite (IH m1 m' S1 W2 H ltac:(intros y Hy; apply N; right; exact Hy) E). apply K.
  apply (table_covers f); [apply N; left; reflexivity|exact H].
Qed.
