(** Theorems: what an XML document tells about the telegrams (C88). *)
From Coq Require Import String.
From Coq Require Import List.
From Verif Require Import CBase PBase CStr MFrame MCodec MVar MText MXml SText SCodec SVar SXml SDoc.
From Verif Require Import PCodec PCodec2 PVar3 PText PXml3 PXml4 PropXml PropText PropVar PropUText PDoc.
Local Open Scope Z_scope.

(** A readout within the limits of C30: the telegrams [f :: fs] with these headers, bodies and tails convert to [text]. *)
Definition lists (its : list item) (t : tail) (tels : list (list Z * list item * tail)) : list (list entry) :=
  entries its t :: map (fun p => entries (snd (fst p)) (snd p)) tels.
Definition readout (st : Z -> option (list Z)) (f : frame) (fs : list frame) (h : list Z) (its : list item) (t : tail)
    (tels : list (list Z * list item * tail)) (text : list Z) : Prop :=
  (forall i, stamp_ok (st i)) /\ var_telegram f h its t /\
  Forall2 (fun f p => var_telegram f (fst (fst p)) (snd (fst p)) (snd p)) fs tels /\
  Forall (Forall small_entry) (lists its t tels) /\
  Z.of_nat (List.length (concat (lists its t tels))) + Z.of_nat (List.length (lists its t tels)) < 10 ^ 9 /\
  exists o, mbus_frame_xml st f fs = Ok o /\ o_text o = Some text.
Lemma readout_document st f fs h its t tels text : readout st f fs h its t tels text ->
  bytes h /\ Forall (Forall wf_entry) (lists its t tels) /\ document st h (lists its t tels) text.
Proof.
  intros (S & T & F & M & L & o & E & X). destruct (C30_chain_partial st S f fs h its t tels T F M L) as (x & hp & R & D & _).
  rewrite E in R. apply ok_inj in R. subst o. cbn [o_text] in X. assert (x = text) as -> by congruence.
  split; [exact (telegram_hbytes f h its t T)|]. split; [|exact D]. unfold lists. constructor; [apply entries_wf; apply T|]. clear - F.
  induction F as [|f p fs tels T _ IH]; [constructor|]. cbn [map]. constructor; [apply entries_wf; apply T|assumption].
Qed.

(** C88: two readouts of variable data replies, each of any number of telegrams, that convert to the same document come
    from slaves with the same identification, list the same number of records and blocks in the same telegrams and
    order, agree record by record in all that is shown, and were received at the same times. *)
Theorem C88_documents :
  forall st1 f1 fs1 h1 its1 t1 tels1 st2 f2 fs2 h2 its2 t2 tels2 text,
  readout st1 f1 fs1 h1 its1 t1 tels1 text -> readout st2 f2 fs2 h2 its2 t2 tels2 text ->
  same_slave h1 h2 /\ same_listing (listing (lists its1 t1 tels1)) (listing (lists its2 t2 tels2)) /\
  forall i, 0 <= i < Z.of_nat (List.length (listing (lists its1 t1 tels1))) -> st1 i = st2 i.
Proof.
  intros st1 f1 fs1 h1 its1 t1 tels1 st2 f2 fs2 h2 its2 t2 tels2 text R1 R2.
  destruct (readout_document _ _ _ _ _ _ _ _ R1) as (B1 & W1 & D1), (readout_document _ _ _ _ _ _ _ _ R2) as (B2 & W2 & D2).
  exact (document_once st1 st2 h1 h2 _ _ text B1 B2 W1 W2 D1 D2).
Qed.
Print Assumptions C88_documents.

(** C88: two records with the same field codes and the same shown texts, whose values are integers, decimal numbers or
    texts, are the same bytes. *)
Lemma value_decode a t : wf_rec a -> mbus_data_record_decode (obj a) = Ok t -> mbus_data_record_value (obj a) = Ok t.
Proof.
  intros W E. unfold mbus_data_record_value. rewrite E. cbn [bind]. f_equal.
  destruct C54_fits_buffer as [F _]. destruct (F a W) as (t' & E' & _ & L). rewrite E in E'. apply ok_inj in E'. subst t'. apply cut_short. lia.
Qed.
Lemma value_bytes a : wf_rec a -> bytes (a_value a).
Proof.
  intros (_ & _ & _ & _ & _ & _ & _ & _ & _ & _ & B). apply Forall_forall. intros x I. unfold bytes in B. rewrite Forall_forall in B. apply B.
  unfold enc_rec. right. apply in_app_iff. right. right. apply in_app_iff. right. apply in_app_iff. right. exact I.
Qed.
Theorem C88_values :
  forall a b, wf_rec a -> wf_rec b -> same_record a b -> same_layout (EData a) (EData b) -> readable (EData a) -> readable (EData b) -> a = b.
Proof.
  intros a b Wa Wb (_ & _ & _ & _ & _ & u & v & u' & v' & _ & _ & _ & Va & Vb & EV) (L1 & L2 & L3 & L4 & L5) Ra Rb.
  assert (X : a_value a = a_value b); [|clear - X L1 L2 L3 L4 L5; destruct a, b; cbn in *; congruence].
  assert (Len : a_dif a mod 16 <> 13 -> List.length (a_value a) = List.length (a_value b)).
  { intros N. rewrite (proj1 (value_exact a Wa N)), (proj1 (value_exact b Wb ltac:(rewrite <- L1; exact N))), L1. reflexivity. }
  cbn [readable] in Ra, Rb. rewrite <- L1, <- L3, <- L5 in Rb.
  assert (Z0 : a_dif a mod 16 = 0 \/ a_dif a mod 16 = 8 -> a_value a = a_value b).
  { intros K. assert (N : a_dif a mod 16 <> 13) by lia. pose proof (proj1 (value_exact a Wa N)) as La. pose proof (Len N) as Lb.
    unfold dif_size in La. assert (Z : List.length (a_value a) = 0%nat) by (destruct K as [K|K]; rewrite K in La; exact La).
    rewrite Z in Lb. destruct (a_value a), (a_value b); try discriminate; reflexivity. }
  destruct Ra as [K|[K|[K|[(K & Es & ds & Pa & Da)|(K & ba & wa & Pa & Ba & Ca)]]]].
  - apply Z0; auto.
  - apply Z0; auto.
  - assert (N : a_dif a mod 16 <> 13) by (unfold int_record in K; cbv zeta in K; lia).
    destruct (C54_integer a Wa K) as (ta & Ta & Da). destruct (C54_integer b Wb ltac:(rewrite <- L1, <- L3, <- L5; exact K)) as (tb & Tb & Db).
    apply (value_decode a _ Wa) in Ta. apply (value_decode b _ Wb) in Tb. rewrite Va in Ta. apply ok_inj in Ta. subst ta. rewrite Vb in Tb. apply ok_inj in Tb. subst tb.
    rewrite (decimal_shown _ _ Da), (decimal_shown _ _ Db) in EV. subst v'. pose proof (decimal_once _ _ _ Da Db) as E. rewrite <- (Len N) in E.
    pose proof (value_bytes a Wa) as Ya. pose proof (value_bytes b Wb) as Yb.
    apply le_once; auto. apply (twos_once (List.length (a_value a))); auto.
    + apply le_bounds; assumption.
    + rewrite (Len N). apply le_bounds; assumption.
    + rewrite (proj1 (value_exact a Wa N)). unfold dif_size. unfold int_record in K; cbv zeta in K.
      destruct K as [K|[[K _]|[K|[[K _]|[[K _]|K]]]]]; rewrite K; apply Nat.ltb_lt; reflexivity.
  - assert (N : a_dif a mod 16 <> 13) by (cbn [In] in K; lia).
    destruct Rb as [Kb|[Kb|[Kb|[(_ & _ & ds' & Pb & Db)|(Kb & _)]]]]; try (exfalso; cbn [In] in K; lia);
      [exfalso; cbn [In] in K; unfold int_record in Kb; cbv zeta in Kb; lia|].
    destruct (C54_bcd a ds Wa K Es Pa Da) as (ta & Ta & Ra). destruct (C54_bcd b ds' Wb ltac:(rewrite <- L1; exact K) ltac:(rewrite <- L1; exact Es) Pb Db) as (tb & Tb & Rb).
    apply (value_decode a _ Wa) in Ta. apply (value_decode b _ Wb) in Tb. rewrite Va in Ta. apply ok_inj in Ta. subst ta. rewrite Vb in Tb. apply ok_inj in Tb. subst tb.
    rewrite (decimal_shown _ _ Ra), (decimal_shown _ _ Rb) in EV. subst v'. pose proof (decimal_once _ _ _ Ra Rb) as E.
    specialize (Len N). rewrite Pa, Pb, !pack_len in Len. rewrite Pa, Pb, (digits_once ds ds' Da Db Len E). reflexivity.
  - destruct Rb as [Kb|[Kb|[Kb|[(Kb & _)|(_ & bb & wb & Pb & Bb & Cb)]]]]; try (exfalso; cbn [In] in Kb; lia);
      [exfalso; unfold int_record in Kb; cbv zeta in Kb; lia|].
    assert (Ch : forall w, Forall (fun c => 32 <= c < 256 /\ c <> 127) w -> c_chars w /\ shown (rev w) = rev w).
    { intros w F. split; [revert F; apply Forall_impl; lia|]. apply shown_plain. apply Forall_rev. revert F. apply Forall_impl. lia. }
    destruct (Ch wa Ca) as [C1 C2], (Ch wb Cb) as [C3 C4].
    pose proof (proj1 (C54_variable_length a ba wa Wa K Pa) Ba C1) as Ta. pose proof (proj1 (C54_variable_length b bb wb Wb ltac:(rewrite <- L1; exact K) Pb) Bb C3) as Tb.
    apply (value_decode a _ Wa) in Ta. apply (value_decode b _ Wb) in Tb. rewrite Va in Ta. apply ok_inj in Ta. subst v. rewrite Vb in Tb. apply ok_inj in Tb. subst v'.
    rewrite C2, C4 in EV. apply (f_equal (@rev Z)) in EV. rewrite !rev_involutive in EV. subst wb. rewrite Pa, Pb. f_equal.
    assert (S : forall x r l, wf_rec x -> a_dif x mod 16 = 13 -> a_value x = r :: l -> r <= 0xBF -> r = Z.of_nat (List.length l)).
    { intros x r l W Kx Px Bx. destruct W as (_ & _ & _ & _ & _ & _ & _ & _ & _ & V & _). unfold value_fits in V. rewrite Kx in V. cbn in V.
      destruct V as (b' & r' & V1 & V2). rewrite Px in V1. injection V1 as <- <-. unfold lvar_size in V2. destruct (Z.ltb_spec r 0xC0); lia. }
    rewrite (S a ba wa Wa K Pa Ba), (S b bb wa Wb ltac:(rewrite <- L1; exact K) Pb Bb). reflexivity.
Qed.
Print Assumptions C88_values.

(** C88: two readouts with the same document and the same layout, all of whose values can be read back, carry the same
    records, value by value. *)
Theorem C88_readback :
  forall st1 f1 fs1 h1 its1 t1 tels1 st2 f2 fs2 h2 its2 t2 tels2 text,
  readout st1 f1 fs1 h1 its1 t1 tels1 text -> readout st2 f2 fs2 h2 its2 t2 tels2 text ->
  let l1 := listing (lists its1 t1 tels1) in let l2 := listing (lists its2 t2 tels2) in
  (forall i x y, nth_error l1 i = Some x -> nth_error l2 i = Some y -> same_layout (snd x) (snd y)) ->
  Forall (fun x => readable (snd x)) l1 -> Forall (fun x => readable (snd x)) l2 -> l1 = l2.
Proof.
  intros st1 f1 fs1 h1 its1 t1 tels1 st2 f2 fs2 h2 its2 t2 tels2 text R1 R2.
  destruct (C88_documents _ _ _ _ _ _ _ _ _ _ _ _ _ _ _ R1 R2) as (_ & S & _).
  destruct (readout_document _ _ _ _ _ _ _ _ R1) as (_ & W1 & _), (readout_document _ _ _ _ _ _ _ _ R2) as (_ & W2 & _).
  apply listing_wf in W1. apply listing_wf in W2. revert S W1 W2. generalize (listing (lists its1 t1 tels1)) (listing (lists its2 t2 tels2)). clear.
  intros l1 l2 S. induction S as [|[k1 e1] [k2 e2] l1 l2 [S1 S2] _ IH]; cbv zeta; intros W1 W2 L A1 A2; [reflexivity|].
  inversion W1; inversion W2; inversion A1; inversion A2; subst. pose proof (L 0%nat _ _ eq_refl eq_refl) as L0. cbn [fst snd] in *. subst k2.
  f_equal; [|apply IH; auto; intros i; exact (L (S i))]. f_equal.
  destruct e1 as [a|m1 b1], e2 as [b|m2 b2]; cbn [same_entry] in S2; try contradiction.
  - f_equal. apply C88_values; assumption.
  - destruct S2 as [-> ->]. reflexivity.
Qed.
Print Assumptions C88_readback.

(** C88: replies of different kinds have different documents; replies with the fixed data structure with the same
    document agree in all that is shown, application errors in the text of the error. *)
Ltac solids := repeat (exact I || (apply solid_elem; [discriminate|]) || apply Forall_cons || apply Forall_nil).
Lemma error_solid t : solid (Elem (cstr "MBusData") [] [Elem (cstr "SlaveInformation") [] [leaf "Error" (shown t)]]).
Proof. solids. Qed.
Theorem C88_fixed :
  forall x y text, fixed_bytes x -> fixed_bytes y -> fixed_document x text -> fixed_document y text -> same_fixed x y.
Proof.
  intros x y text (B1 & N1 & B2 & N2 & B3 & N3 & _) (C1 & O1 & C2 & O2 & C3 & O3 & _).
  intros (b1 & tid1 & tacc1 & tst1 & v1 & w1 & -> & (I1 & _) & A1 & S1 & P1 & Q1 & R1) (b2 & tid2 & tacc2 & tst2 & v2 & w2 & E & (I2 & _) & A2 & S2 & P2 & Q2 & R2).
  apply app_inv_head in E. apply app_inv_head in E. subst b2.
  match type of R1 with renders _ [?n1] => match type of R2 with renders _ [?n2] => assert (X : n1 = n2) by (apply (text_once b1); [solids|solids|exact R1|exact R2]) end end. clear R1 R2.
  pose proof (f_equal (fun n => match n with Elem _ _ l => map (fun x => match x with Elem _ _ l => map (fun x => match x with Leaf _ t => t | _ => [] end) l | _ => [] end) l | _ => [] end) X) as Y.
  cbn [map leaf] in Y. clear X.
  assert (tid2 = tid1 /\ tacc2 = tacc1 /\ tst2 = tst1 /\ v2 = v1 /\ w2 = w1 /\ shown (mbus_data_fixed_medium x) = shown (mbus_data_fixed_medium y) /\
    shown (mbus_data_fixed_unit (x_type1 x)) = shown (mbus_data_fixed_unit (x_type1 y)) /\ shown (mbus_data_fixed_unit (x_type2 x)) = shown (mbus_data_fixed_unit (x_type2 y)))
    as (-> & -> & -> & -> & -> & E1 & E2 & E3) by (repeat split; congruence). clear Y.
  assert (Est : x_status x = x_status y) by (destruct S1 as (_ & S1 & _), S2 as (_ & S2 & _); congruence).
  assert (Cn : forall s a b t, bytes a -> List.length a = 4%nat -> bytes b -> List.length b = 4%nat -> counter_text s a t -> counter_text s b t -> a = b).
  { intros s a b t Ba La Bb Lb Ha Hb. apply le_once; auto; [congruence|]. unfold counter_text in *. destruct (s <? 128).
    - destruct Ha as [Ha _], Hb as [Hb _]. congruence.
    - pose proof (decimal_once _ _ _ Ha Hb) as E. apply (twos_once 4); auto; [|]; [pose proof (le_bounds a Ba) as X; rewrite La in X; exact X|pose proof (le_bounds b Bb) as X; rewrite Lb in X; exact X]. }
  rewrite Est in P1, Q1. unfold same_fixed. split; [apply le_once; congruence|]. split; [exact (decimal_once _ _ _ A1 A2)|]. split; [exact Est|].
  split; [apply (Cn (x_status y) _ _ v1); assumption|]. split; [apply (Cn (x_status y) _ _ w1); assumption|]. auto.
Qed.
Theorem C88_kinds :
  forall st h tels x e e' text,
  (document st h tels text -> fixed_document x text -> False) /\
  (document st h tels text -> error_document e text -> False) /\
  (fixed_document x text -> error_document e text -> False) /\
  (error_document e text -> error_document e' text -> shown e = shown e').
Proof.
  intros st h tels x e e' text.
  assert (D : document st h tels text -> exists b s r, text = cstr "<?xml version=""1.0"" encoding=""ISO-8859-1""?>" ++ [10] ++ b /\ renders b [Elem (cstr "MBusData") [] (s :: r)] /\
    solid (Elem (cstr "MBusData") [] (s :: r)) /\ match s with Elem _ _ l => List.length l = 8%nat | _ => False end).
  { intros (b & s & r & E & R & S & T). apply document_lined in T. exists b, s, r. split; [exact E|]. split; [exact R|]. split.
    - apply solid_elem; [discriminate|]. constructor; [eapply slave_solid; eassumption|eapply lined_solid; eassumption].
    - destruct S as (a0 & a1 & a2 & a3 & m0 & m1 & ve & me & ac & stt & s0 & s1 & _ & tid & tman & tver & tacc & tst & tsig & _ & _ & _ & _ & _ & _ & ->). reflexivity. }
  assert (Fx : fixed_document x text -> exists b s r, text = cstr "<?xml version=""1.0"" encoding=""ISO-8859-1""?>" ++ [10] ++ b /\ renders b [Elem (cstr "MBusData") [] (s :: r)] /\
    solid (Elem (cstr "MBusData") [] (s :: r)) /\ match s with Elem _ _ l => List.length l = 4%nat | _ => False end).
  { intros (b1 & tid1 & tacc1 & tst1 & v1 & w1 & E & I1 & A1 & S1 & P1 & Q1 & R1). exists b1. eexists. eexists. split; [exact E|]. split; [exact R1|]. split; [|reflexivity].
    solids. }
  split; [|split; [|split]].
  - intros A B. destruct (D A) as (b & s & r & -> & R & S & L), (Fx B) as (b' & s' & r' & E & R' & S' & L').
    apply app_inv_head in E. apply app_inv_head in E. subst b'. pose proof (text_once b _ _ S S' R R') as X. assert (s' = s) by congruence. subst s'.
    destruct s; [contradiction|]. congruence.
  - intros A (b' & E' & R'). destruct (D A) as (b & s & r & -> & R & S & L).
    apply app_inv_head in E'. apply app_inv_head in E'. subst b'. pose proof (text_once b _ _ S (error_solid e) R R') as X.
    assert (Y : s = Elem (cstr "SlaveInformation") [] [leaf "Error" (shown e)]) by congruence. subst s. discriminate.
  - intros A (b' & E' & R'). destruct (Fx A) as (b & s & r & -> & R & S & L).
    apply app_inv_head in E'. apply app_inv_head in E'. subst b'. pose proof (text_once b _ _ S (error_solid e) R R') as X.
    assert (Y : s = Elem (cstr "SlaveInformation") [] [leaf "Error" (shown e)]) by congruence. subst s. discriminate.
  - intros (b & -> & R) (b' & E & R'). apply app_inv_head in E. apply app_inv_head in E. subst b'. pose proof (text_once b _ _ (error_solid e) (error_solid e') R R') as X.
    unfold leaf in X. congruence.
Qed.
Print Assumptions C88_fixed.
Print Assumptions C88_kinds.

(** Two different texts for two different counter readings: the hypotheses can be met, and the documents differ. *)
Definition one_its (v : Z) : list item := [Data (mkA 0x01 [] 0x13 [] [] [v])].
Definition one_frame (v : Z) : frame := reply (ex_header ++ enc_body (one_its v) None) 0.
Lemma one_telegram v : is_byte v -> var_telegram (one_frame v) ex_header (one_its v) None.
Proof.
  intros H. unfold var_telegram. split; [|split; [reflexivity|split; [|split; [exact I|split; [unfold is_byte; cbn; lia|split; reflexivity]]]]].
  - apply reply_carries; [|unfold is_byte; lia|vm_compute; lia]. apply Forall_app. split; [vm_compute; repeat constructor; discriminate|].
    unfold is_byte in H. change (Forall is_byte [1; 0x13; v]). repeat (apply Forall_cons || apply Forall_nil); unfold is_byte; lia.
  - constructor; [|constructor]. unfold is_byte in H. wf_example. change (Forall is_byte [1; 0x13; v]). repeat (apply Forall_cons || apply Forall_nil); unfold is_byte; lia.
Qed.
Example C88_nonvacuous :
  exists text text', readout (fun _ => None) (one_frame 5) [] ex_header (one_its 5) None [] text /\
    readout (fun _ => None) (one_frame 6) [] ex_header (one_its 6) None [] text' /\ text <> text' /\
    Forall (fun x => readable (snd x)) (listing (lists (one_its 5) None [])).
Proof.
  assert (Sm : forall v, v = 5 \/ v = 6 -> Forall (Forall small_entry) (lists (one_its v) None [])).
  { intros v H. repeat (apply Forall_cons || apply Forall_nil). cbn [small_entry]. split; [cbn; lia|]. split; [vm_compute; reflexivity|]. intros u w Hu Hw. destruct H as [-> | ->]; vm_compute in Hu, Hw; apply ok_inj in Hu; apply ok_inj in Hw; subst; vm_compute; lia. }
  eexists. eexists. split; [|split; [|split]].
  - split; [intros; exact I|]. split; [apply one_telegram; unfold is_byte; lia|]. split; [constructor|]. split; [apply Sm; lia|]. split; [vm_compute; reflexivity|].
    eexists. split; [vm_compute; reflexivity|reflexivity].
  - split; [intros; exact I|]. split; [apply one_telegram; unfold is_byte; lia|]. split; [constructor|]. split; [apply Sm; lia|]. split; [vm_compute; reflexivity|].
    eexists. split; [vm_compute; reflexivity|reflexivity].
  - vm_compute. discriminate.
  - repeat (apply Forall_cons || apply Forall_nil). cbn. right. right. left. left. reflexivity.
Qed.

(** The conditions of C88_readback are needed: a text and a binary value can be shown alike, and so can two small real
    numbers; the documents of these telegrams are the same. *)
Definition one_of (a : arec) : frame := reply (ex_header ++ enc_body [Data a] None) 0.
Lemma one_readout a text : wf_rec a -> (List.length (enc_rec a) <= 200)%nat -> small_entry (EData a) ->
  (exists o, mbus_frame_xml (fun _ => None) (one_of a) [] = Ok o /\ o_text o = Some text) ->
  readout (fun _ => None) (one_of a) [] ex_header [Data a] None [] text.
Proof.
  intros W L S E. split; [intros; exact I|]. split; [|split; [constructor|split; [repeat (apply Forall_cons || apply Forall_nil); exact S|split; [vm_compute; reflexivity|exact E]]]].
  unfold var_telegram. split; [|split; [reflexivity|split; [repeat (apply Forall_cons || apply Forall_nil); exact W|split; [exact I|split; [unfold is_byte; cbn; lia|split; reflexivity]]]]].
  assert (X : enc_body [Data a] None = enc_rec a) by (unfold enc_body; cbn [flat_map enc_item]; rewrite !app_nil_r; reflexivity).
  unfold one_of. rewrite X. apply reply_carries; [|unfold is_byte; lia|].
  - apply Forall_app. split; [vm_compute; repeat constructor; discriminate|]. apply W.
  - rewrite app_length. change (List.length ex_header) with 12%nat. lia.
Qed.
Definition text_rec : arec := mkA 0x0D [] 0x78 [] [] [2; 0x31; 0x34].
Definition byte_rec : arec := mkA 0x0D [] 0x78 [] [] [0xE1; 0x41].
Definition zero_rec : arec := mkA 0x05 [] 0x13 [] [] [0; 0; 0; 0].
Definition tiny_rec : arec := mkA 0x05 [] 0x13 [] [] [0; 0; 0; 0x30].
Ltac small_one := cbn [small_entry a_difes a_dif]; split; [cbn; lia|]; split; [vm_compute; reflexivity|]; intros u v Hu Hv;
  vm_compute in Hu, Hv; apply ok_inj in Hu; apply ok_inj in Hv; subst; vm_compute; lia.
Theorem C88_undetected :
  exists text text', readout (fun _ => None) (one_of text_rec) [] ex_header [Data text_rec] None [] text /\
    readout (fun _ => None) (one_of byte_rec) [] ex_header [Data byte_rec] None [] text /\
    readout (fun _ => None) (one_of zero_rec) [] ex_header [Data zero_rec] None [] text' /\
    readout (fun _ => None) (one_of tiny_rec) [] ex_header [Data tiny_rec] None [] text' /\
    text_rec <> byte_rec /\ zero_rec <> tiny_rec.
Proof.
  match goal with |- exists t, _ => let y := eval vm_compute in (match mbus_frame_xml (fun _ => None) (one_of text_rec) [] with Ok o => match o_text o with Some t => t | None => [] end | UB => [] end) in exists y end.
  match goal with |- exists t, _ => let y := eval vm_compute in (match mbus_frame_xml (fun _ => None) (one_of zero_rec) [] with Ok o => match o_text o with Some t => t | None => [] end | UB => [] end) in exists y end.
  split; [|split; [|split; [|split; [|split; discriminate]]]]; (apply one_readout; [|vm_compute; lia|small_one|eexists; split; [vm_compute; reflexivity|reflexivity]]).
  - wf_example; exists 2, [0x31; 0x34]; auto.
  - wf_example; exists 0xE1, [0x41]; auto.
  - wf_example.
  - wf_example.
Qed.
Print Assumptions C88_undetected.
