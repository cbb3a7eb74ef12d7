(** Proofs about memory. *)
From Coq Require Import String.
From Coq Require Import List.
From Verif Require Import CBase PBase CStr MFrame MCodec MVar MText MXml MSecond PCodec2 PReq2 MMem SMem.
Local Open Scope Z_scope.

Lemma nth_put l a c b : nth b (put l a c) None = if (a =? b)%nat && (a <? length l)%nat then c else nth b l None.
Proof.
  revert a b. induction l as [|x l IH]; intros [|a] [|b]; cbn [put nth length]; try reflexivity.
  - change (S a <? 0)%nat with false. rewrite andb_false_r. reflexivity.
  - rewrite IH. reflexivity.
Qed.
Lemma length_put l a c : length (put l a c) = length l.
Proof. revert a. induction l as [|x l IH]; intros [|a]; cbn; auto. Qed.
Lemma look_bound m a c : look m a = Some c -> (a < length (m_cells m))%nat.
Proof. unfold look. intros H. destruct (Nat.ltb_spec a (length (m_cells m))); [assumption|]. rewrite nth_overflow in H by assumption. discriminate. Qed.
Lemma look_over m a : (length (m_cells m) <= a)%nat -> look m a = None.
Proof. apply nth_overflow. Qed.

Lemma free_ok a m c : look m a = Some c -> exists m', free (Some a) m = Ok m' /\ look m' a = None /\ (forall b, b <> a -> look m' b = look m b) /\
  length (m_cells m') = length (m_cells m) /\ m_fails m' = m_fails m.
Proof.
  intros H. unfold free. rewrite H. eexists. split; [reflexivity|]. cbn. unfold look. cbn [m_cells]. apply look_bound in H. split.
  - rewrite nth_put, Nat.eqb_refl. destruct (Nat.ltb_spec a (length (m_cells m))); [reflexivity|lia].
  - split; [|split; [apply length_put|reflexivity]]. intros b N. rewrite nth_put. destruct (Nat.eqb_spec a b); [congruence|reflexivity].
Qed.
Lemma store_ok a m c c' : look m a = Some c -> exists m', store a c' m = Ok m' /\ look m' a = Some c' /\ (forall b, b <> a -> look m' b = look m b) /\
  length (m_cells m') = length (m_cells m) /\ m_fails m' = m_fails m.
Proof.
  intros H. unfold store. rewrite H. eexists. split; [reflexivity|]. cbn. unfold look. cbn [m_cells]. apply look_bound in H. split.
  - rewrite nth_put, Nat.eqb_refl. destruct (Nat.ltb_spec a (length (m_cells m))); [reflexivity|lia].
  - split; [|split; [apply length_put|reflexivity]]. intros b N. rewrite nth_put. destruct (Nat.eqb_spec a b); [congruence|reflexivity].
Qed.
(** An allocation either fails, consuming a failure, or gives a new object. *)
Lemma malloc_cases c m :
  (exists m', malloc c m = (None, m') /\ m_cells m' = m_cells m /\ m_fails m = true :: m_fails m') \/
  (exists m', malloc c m = (Some (length (m_cells m)), m') /\ look m' (length (m_cells m)) = Some c /\
     (forall b, b <> length (m_cells m) -> look m' b = look m b) /\ length (m_cells m') = S (length (m_cells m)) /\
     (m_fails m = false :: m_fails m' \/ m_fails m = [] /\ m_fails m' = [])).
Proof.
  unfold malloc. destruct (m_fails m) as [|[|] fs] eqn:E.
  2: { left. eexists. split; [reflexivity|]. split; reflexivity. }
  all: right; eexists; (split; [reflexivity|]); unfold look; cbn [m_cells m_fails tl]; rewrite app_length; cbn [length];
    (split; [rewrite app_nth2, Nat.sub_diag by lia; reflexivity|]); (split; [|split; [lia|auto]]); intros b N;
    (destruct (Nat.ltb_spec b (length (m_cells m))); [apply app_nth1; assumption|rewrite !nth_overflow; [reflexivity|lia|rewrite app_length; cbn; lia]]).
Qed.

(** ** Lists *)
Lemma chain_det m p l l' : chain m p l -> chain m p l' -> l = l'.
Proof.
  intros H. revert l'. induction H as [|a r next l E H IH]; intros l' H'; inversion H' as [|a' r' next' k E' K]; subst; [reflexivity|].
  rewrite E in E'. injection E' as <- <-. f_equal. apply IH. assumption.
Qed.
Lemma chain_suffix m p l a r l2 : chain m p l -> (exists l1, l = l1 ++ (a, r) :: l2) -> chain m (Some a) ((a, r) :: l2).
Proof.
  intros H. induction H as [|b s next l E H IH]; intros [[|x l1] E1]; cbn in E1; try discriminate.
  - injection E1 as -> -> ->. econstructor; eassumption.
  - injection E1 as _ E1. apply IH. eauto.
Qed.
Lemma chain_nodup m p l : chain m p l -> NoDup (map fst l).
Proof.
  intros H. induction H as [|a r next l E H IH]; [constructor|]. cbn. constructor; [|assumption].
  intros I. apply in_map_iff in I. destruct I as ([b s] & Eb & I). cbn in Eb. subst b. apply in_split in I. destruct I as (l1 & l2 & ->).
  assert (A : chain m (Some a) ((a, s) :: l2)) by (eapply chain_suffix; [exact H|eauto]).
  assert (B : chain m (Some a) ((a, r) :: l1 ++ (a, s) :: l2)) by (econstructor; eassumption).
  pose proof (chain_det _ _ _ _ A B) as Q. apply (f_equal (@length _)) in Q. cbn in Q. rewrite app_length in Q. cbn in Q. lia.
Qed.
Lemma chain_look m p l a : chain m p l -> In a (map fst l) -> exists r next, look m a = Some (CRec r next).
Proof. intros H. induction H as [|b r next l E H IH]; intros I; [destruct I|]. cbn in I. destruct I as [<-|I]; [eauto|auto]. Qed.
Lemma chain_keep m m' p l : chain m p l -> (forall a, In a (map fst l) -> look m' a = look m a) -> chain m' p l.
Proof. intros H. induction H as [|b r next l E H IH]; intros K; [constructor|]. econstructor; [rewrite K; [exact E|left; reflexivity]|]. apply IH. intros a I. apply K. right. exact I. Qed.
Lemma bounded_length (l : list nat) n : NoDup l -> (forall a, In a l -> (a < n)%nat) -> (length l <= n)%nat.
Proof. intros N B. pose proof (NoDup_incl_length N (l' := seq 0 n)) as H. rewrite seq_length in H. apply H. intros a I. apply in_seq. specialize (B a I). lia. Qed.
Lemma chain_short m p l : chain m p l -> (length l <= length (m_cells m))%nat.
Proof.
  intros H. rewrite <- (map_length fst l). apply bounded_length; [eapply chain_nodup; eassumption|]. intros a I. destruct (chain_look _ _ _ _ H I) as (r & nx & E). eapply look_bound. exact E.
Qed.

Lemma record_free_chain fuel : forall p m l, chain m p l -> (length l < fuel)%nat -> exists m', record_free_from fuel p m = Ok m' /\
  released (map fst l) m m' /\ length (m_cells m') = length (m_cells m) /\ m_fails m' = m_fails m.
Proof.
  induction fuel as [|fuel IH]; intros p m l H F; [lia|]. pose proof (chain_nodup _ _ _ H) as ND. pose proof H as H0. inversion H as [|a r next k E K]; subst.
  - exists m. split; [reflexivity|]. split; [|auto]. split; [intros a []|auto].
  - cbn [record_free_from]. rewrite E. destruct (free_ok a m _ E) as (m1 & E1 & L1 & L2 & L3 & L4). rewrite E1. cbn [bind].
    cbn in ND. inversion ND as [|? ? N1 N2]; subst.
    assert (K1 : chain m1 next k). { eapply chain_keep; [exact K|]. intros b I. apply L2. intros ->. contradiction. }
    cbn in F. destruct (IH next m1 k K1 ltac:(lia)) as (m2 & E2 & (R1 & R2) & L5 & L6). exists m2. split; [exact E2|]. split; [|split; congruence]. split.
    + intros b I. cbn in I. split.
      * destruct (chain_look _ _ _ b H0 I) as (r' & nx & Eb). rewrite Eb. discriminate.
      * destruct I as [<-|I]; [rewrite R2 by exact N1; exact L1|]. apply (R1 b I).
    + intros b I. cbn in I. rewrite R2 by tauto. apply L2. intros ->. tauto.
Qed.
Lemma record_free_ok p m l : chain m p l -> exists m', mbus_data_record_free p m = Ok m' /\ released (map fst l) m m' /\ length (m_cells m') = length (m_cells m) /\ m_fails m' = m_fails m.
Proof. intros H. apply record_free_chain; [assumption|]. apply chain_short in H. lia. Qed.

Lemma record_last_chain fuel : forall a m l, chain m (Some a) l -> (length l < fuel)%nat -> exists b r l', record_last fuel a m = Ok b /\ l = l' ++ [(b, r)] /\ look m b = Some (CRec r None).
Proof.
  induction fuel as [|fuel IH]; intros a m l H F; [lia|]. inversion H as [|a' r next k E K]; subst. cbn [record_last]. rewrite E.
  destruct next as [b|].
  - cbn in F. destruct (IH b m k K ltac:(lia)) as (c & s & l' & E1 & -> & L). exists c, s, ((a, r) :: l'). auto.
  - inversion K; subst. exists a, r, []. auto.
Qed.
Lemma chain_snoc m m' p l b r a s : chain m p (l ++ [(b, r)]) -> look m' b = Some (CRec r (Some a)) -> (forall c, In c (map fst l) -> look m' c = look m c) ->
  look m' a = Some (CRec s None) -> chain m' p (l ++ [(b, r); (a, s)]).
Proof.
  revert p. induction l as [|[c q] l IH]; intros p H Eb K Ea; cbn in *.
  - inversion H as [|b' r' next k E K']; subst. econstructor; [exact Eb|]. econstructor; [exact Ea|constructor].
  - inversion H as [|b' r' next k E K']; subst. econstructor; [rewrite K by auto; exact E|]. apply IH; auto.
Qed.
(** Appending a new record. *)
Lemma append_ok head m l a r : chain m head l -> look m a = Some (CRec r None) -> ~ In a (map fst l) ->
  exists head' m', mbus_data_record_append head (Some a) m = Ok (head', m') /\ chain m' head' (l ++ [(a, r)]) /\
    (forall c, ~ In c (map fst l) -> look m' c = look m c) /\ length (m_cells m') = length (m_cells m) /\ m_fails m' = m_fails m.
Proof.
  intros H Ea N. destruct head as [h|].
  - destruct (record_last_chain (S (length (m_cells m))) h m l H) as (b & s & l' & E1 & -> & Lb); [apply chain_short in H; lia|].
    cbn [mbus_data_record_append]. rewrite E1. cbn [bind]. rewrite Lb. destruct (store_ok b m _ (CRec s (Some a)) Lb) as (m' & E2 & L1 & L2 & L3 & L4). rewrite E2. cbn [bind].
    exists (Some h), m'. split; [reflexivity|]. pose proof (chain_nodup _ _ _ H) as ND. rewrite map_app in ND, N. cbn in ND, N.
    assert (a <> b). { intros ->. apply N. apply in_or_app. right. left. reflexivity. }
    split.
    + rewrite <- app_assoc. eapply chain_snoc; [exact H|exact L1| |rewrite L2 by assumption; exact Ea].
      intros c I. apply L2. intros ->. apply NoDup_remove_2 in ND. apply ND. rewrite app_nil_r. exact I.
    + split; [|auto]. intros c I. apply L2. intros ->. apply I. rewrite map_app. apply in_or_app. right. left. reflexivity.
  - inversion H; subst. exists (Some a), m. split; [reflexivity|]. split; [|auto]. econstructor; [exact Ea|constructor].
Qed.

(** ** Parsing *)
Definition holds_list (m0 m : mem) (p : option nat) (l : list (nat * rec)) : Prop :=
  chain m p l /\ (forall a, In a (map fst l) -> (length (m_cells m0) <= a)%nat) /\ (forall a, ~ In a (map fst l) -> look m a = look m0 a) /\
  (length (m_cells m0) <= length (m_cells m))%nat.
Lemma holds_added m0 m p l : holds_list m0 m p l -> added (map fst l) m0 m.
Proof.
  intros (C & B & K & _). split; [eapply chain_nodup; exact C|]. split; [|exact K]. intros a I. split; [apply look_over; auto|].
  destruct (chain_look _ _ _ _ C I) as (r & nx & E). rewrite E. discriminate.
Qed.
Lemma holds_start m : holds_list m m None [].
Proof. split; [constructor|]. split; [intros a []|]. split; [auto|lia]. Qed.
Lemma holds_free m0 m p l : holds_list m0 m p l -> exists m', mbus_data_record_free p m = Ok m' /\ same_memory m0 m' /\ m_fails m' = m_fails m /\ (length (m_cells m0) <= length (m_cells m'))%nat.
Proof.
  intros (C & B & K & Len). destruct (record_free_ok p m l C) as (m' & E & (R1 & R2) & L & F). exists m'. split; [exact E|]. split; [|split; [exact F|lia]].
  intros a. destruct (in_dec Nat.eq_dec a (map fst l)) as [I|I].
  - destruct (R1 a I) as [_ ->]. symmetry. apply look_over. auto.
  - rewrite R2 by exact I. apply K. exact I.
Qed.
Lemma same_trans m m1 m2 : same_memory m m1 -> same_memory m1 m2 -> same_memory m m2.
Proof. intros A B a. rewrite B. apply A. Qed.
Lemma added_free a m m1 : added [a] m m1 -> exists m2, free (Some a) m1 = Ok m2 /\ same_memory m m2 /\ m_fails m2 = m_fails m1.
Proof.
  intros (_ & A & K). destruct (A a (or_introl eq_refl)) as [L N]. destruct (look m1 a) as [c|] eqn:E; [|congruence].
  destruct (free_ok a m1 c E) as (m2 & F & L1 & L2 & _ & L4). exists m2. split; [exact F|]. split; [|exact L4]. intros b. destruct (Nat.eq_dec b a) as [->|Nb]; [congruence|].
  rewrite L2 by assumption. apply K. intros [H|[]]. congruence.
Qed.

Lemma records_grow fuel d n : forall i dv c dv', records_loop fuel d n i dv = Ok (c, dv') -> exists l, v_records dv' = v_records dv ++ l /\ v_header dv' = v_header dv.
Proof.
  induction fuel as [|fuel IH]; intros i dv c dv' H; cbn [records_loop] in H; [discriminate|].
  destruct (i <? n)%nat; [|injection H as _ <-; exists []; rewrite app_nil_r; auto].
  destruct (rd d i) as [b|]; [|discriminate]. cbn [bind] in H. destruct (Z.land b 0xFF =? 0x2F); [eauto|].
  destruct ((b =? 0x0F) || (b =? 0x1F)).
  - destruct (parse_rest d n i b) as [[r i']|]; [|discriminate]. cbn [bind] in H. apply IH in H. destruct H as (l & E & F). cbn [v_records v_header] in E, F. rewrite <- app_assoc in E. eauto.
  - destruct (parse_record d n i) as [[[r i']|]|]; [| |discriminate]; cbn [bind] in H.
    + apply IH in H. destruct H as (l & E & F). cbn [v_records v_header] in E, F. rewrite <- app_assoc in E. eauto.
    + injection H as _ <-. exists []. rewrite app_nil_r. auto.
Qed.

(** The outcome of the record loop: the same as without shortage, or -2 with the records before the failure. *)
Definition parsed_as (m0 m m' : mem) (c c' : Z) (dv' : dvar) (pv' : pvar) : Prop :=
  exists l' used, holds_list m0 m' (pv_record pv') l' /\ pv_header pv' = v_header dv' /\ attempts used m m' /\ pv_nrecords pv' = Z.of_nat (length l') /\
  ((c' = c /\ map snd l' = v_records dv' /\ pv_more pv' = v_more dv' /\ ~ In true used) \/
   (c' = -2 /\ In true used /\ exists k, ((k < length (v_records dv'))%nat \/ c = -1) /\ map snd l' = firstn k (v_records dv'))).
Lemma attempts_cons b used m m1 m2 : m_fails m = b :: m_fails m1 -> attempts used m1 m2 -> attempts (b :: used) m m2.
Proof. unfold attempts. intros -> ->. reflexivity. Qed.

Lemma loop_mem fuel d n m0 : forall i dv c dv' pv m l, records_loop fuel d n i dv = Ok (c, dv') ->
  holds_list m0 m (pv_record pv) l -> map snd l = v_records dv -> pv_header pv = v_header dv -> pv_more pv = v_more dv -> pv_nrecords pv = Z.of_nat (length l) ->
  exists c' pv' m', records_mem fuel d n i pv m = Ok (c', pv', m') /\ parsed_as m0 m m' c c' dv' pv'.
Proof.
  induction fuel as [|fuel IH]; intros i dv c dv' pv m l H HL Es Eh Em En; pose proof (records_grow _ _ _ _ _ _ _ H) as (g & Gr & Gh); cbn [records_loop] in H; [discriminate|]. cbn [records_mem].
  destruct (i <? n)%nat.
  2: { injection H as <- <-. exists 0, pv, m. split; [reflexivity|]. exists l, []. split; [exact HL|]. split; [exact Eh|]. split; [reflexivity|]. split; [exact En|]. left. auto. }
  destruct (rd d i) as [b|]; [|discriminate]. cbn [bind] in *. destruct (Z.land b 0xFF =? 0x2F); [eapply IH; eassumption|].
  unfold mbus_data_record_new. destruct (malloc_cases (CRec rec_new None) m) as [(m1 & E1 & C1 & F1)|(m1 & E1 & La & Lo & Ll & F1)]; rewrite E1.
  { (* no memory *)
    eexists _, _, _. split; [reflexivity|]. exists l, [true]. split.
    { destruct HL as (HL1 & HL2 & HL3 & HL4). split; [eapply chain_keep; [exact HL1|intros; unfold look; rewrite C1; reflexivity]|]. split; [exact HL2|]. split; [intros a I; unfold look at 1; rewrite C1; apply HL3; exact I|rewrite C1; exact HL4]. }
    split; [congruence|]. split; [exact F1|]. split; [exact En|]. right. split; [reflexivity|]. split; [left; reflexivity|]. exists (length (v_records dv)). split.
    2: { rewrite Gr, firstn_app, Nat.sub_diag, firstn_O, app_nil_r, firstn_all. exact Es. }
    (* more records would have come *)
    destruct ((b =? 0x0F) || (b =? 0x1F)).
    - destruct (parse_rest d n i b) as [[r i']|]; [|discriminate]. cbn [bind] in H. apply records_grow in H. destruct H as (g2 & H & _). cbn [v_records] in H. left. rewrite H, <- app_assoc, app_length. cbn. lia.
    - destruct (parse_record d n i) as [[[r i']|]|]; [| |discriminate]; cbn [bind] in H; [|injection H as <- _; right; reflexivity].
      apply records_grow in H. destruct H as (g2 & H & _). cbn [v_records] in H. left. rewrite H, <- app_assoc, app_length. cbn. lia. }
  set (a := length (m_cells m)) in *. destruct HL as (HL1 & HL2 & HL3 & HL4).
  assert (Na : ~ In a (map fst l)). { intros I. destruct (chain_look _ _ _ _ HL1 I) as (r & nx & E). apply look_bound in E. unfold a in E. lia. }
  assert (Use : exists b0, m_fails m = b0 ++ m_fails m1 /\ ~ In true b0). { destruct F1 as [F|[F F']]; [exists [false]|exists []]; rewrite F, ?F'; split; try reflexivity; cbn; intuition discriminate. }
  destruct Use as (u1 & U1 & U2).
  (* filling and appending the record *)
  assert (AP : forall r, exists head m3, (let* m := store a (CRec r None) m1 in mbus_data_record_append (pv_record pv) (Some a) m) = Ok (head, m3) /\ holds_list m0 m3 head (l ++ [(a, r)]) /\ m_fails m3 = m_fails m1).
  { intros r. destruct (store_ok a m1 _ (CRec r None) La) as (m2 & E2 & L1 & L2 & L3 & L4). rewrite E2. cbn [bind].
    assert (C2 : chain m2 (pv_record pv) l). { eapply chain_keep; [exact HL1|]. intros x I. assert (x <> a) by (intros ->; contradiction). rewrite L2, Lo by assumption. reflexivity. }
    destruct (append_ok _ m2 l a r C2 L1 Na) as (head & m3 & E3 & C3 & K3 & Len3 & F3). exists head, m3. split; [exact E3|]. split; [|congruence].
    split; [exact C3|]. rewrite map_app. cbn [map fst]. split; [|split; [|lia]].
    - intros x I. apply in_app_or in I. destruct I as [I|[<-|[]]]; [auto|unfold a; lia].
    - intros x I. assert (x <> a) by (intros ->; apply I; apply in_or_app; right; left; reflexivity). assert (~ In x (map fst l)) by (intros J; apply I; apply in_or_app; left; exact J).
      rewrite K3, L2, Lo by assumption. auto. }
  assert (Cont : forall r i' more, records_loop fuel d n i' (mkVar (v_header dv) (v_records dv ++ [r]) (v_nrecords dv + 1) more) = Ok (c, dv') ->
    exists c' pv' m', (let* m := store a (CRec r None) m1 in let* (head, m) := mbus_data_record_append (pv_record pv) (Some a) m in
      records_mem fuel d n i' (mkPV (pv_header pv) head (pv_nrecords pv + 1) more) m) = Ok (c', pv', m') /\ parsed_as m0 m m' c c' dv' pv').
  { intros r i' more Hn. destruct (AP r) as (head & m3 & E3 & HL3' & F3). destruct (store a (CRec r None) m1) as [m2|]; [|discriminate]. cbn [bind] in E3 |- *. rewrite E3. cbn [bind].
    destruct (IH i' _ c dv' (mkPV (pv_header pv) head (pv_nrecords pv + 1) more) m3 (l ++ [(a, r)]) Hn) as (c' & pv' & m' & E4 & l' & used & Q1 & Q2 & Q3 & Q4 & Q5); cbn [pv_record pv_header pv_more pv_nrecords v_records v_header v_more].
    - exact HL3'.
    - rewrite map_app, Es. reflexivity.
    - exact Eh.
    - reflexivity.
    - rewrite app_length, En. cbn. lia.
    - exists c', pv', m'. split; [exact E4|]. exists l', (u1 ++ used). split; [exact Q1|]. split; [exact Q2|]. split; [unfold attempts in *; rewrite U1, <- app_assoc; congruence|]. split; [exact Q4|].
      destruct Q5 as [(Q5 & Q6 & Q7 & Q8)|(Q5 & Q6 & Q7)]; [left|right].
      + repeat split; auto. intros I. apply in_app_or in I. tauto.
      + repeat split; auto. apply in_or_app. right. exact Q6. }
  destruct ((b =? 0x0F) || (b =? 0x1F)).
  - destruct (parse_rest d n i b) as [[r i']|]; [|discriminate]. cbn [bind] in *. rewrite Em. apply Cont. exact H.
  - destruct (parse_record d n i) as [[[r i']|]|]; [| |discriminate]; cbn [bind] in *.
    + rewrite Em. apply Cont. exact H.
    + injection H as <- <-. assert (C1 : chain m1 (Some a) [(a, rec_new)]) by (econstructor; [exact La|constructor]).
      destruct (record_free_ok _ _ _ C1) as (m2 & E2 & (R1 & R2) & Len2 & F2). rewrite E2. cbn [bind]. exists (-1), pv, m2. split; [reflexivity|].
      cbn [map fst] in R1, R2. assert (K : forall x, look m2 x = look m x).
      { intros x. destruct (Nat.eq_dec x a) as [->|N]; [destruct (R1 a (or_introl eq_refl)) as [_ ->]; symmetry; apply look_over; unfold a; lia|]. rewrite R2 by (intros [J|[]]; congruence). apply Lo. exact N. }
      exists l, u1. split.
      { split; [eapply chain_keep; [exact HL1|intros; apply K]|]. split; [exact HL2|]. split; [intros x I; rewrite K; auto|lia]. }
      split; [exact Eh|]. split; [unfold attempts; congruence|]. split; [exact En|]. left. auto.
Qed.

Lemma variable_mem f dv c dv' pv m : mbus_data_variable_parse f dv = Ok (c, dv') -> (12 <= Z.to_nat (data_size f))%nat ->
  exists c' pv' m', variable_parse_mem f pv m = Ok (c', pv', m') /\ parsed_as m m m' c c' dv' pv'.
Proof.
  intros H Hn. unfold mbus_data_variable_parse, variable_parse_mem in *. destruct (Nat.ltb_spec (Z.to_nat (data_size f)) 12); [lia|].
  destruct (copy_loop 12 (repeat 0 12) 0 (fdata f) 0) as [h|]; [|discriminate]. cbn [bind] in *.
  eapply loop_mem; [exact H|apply holds_start|reflexivity..].
Qed.
(** The other members of the data object. *)
Definition alike (fd : fdat) (pd : pdat) : Prop := p_fix pd = d_fix fd /\ p_type pd = d_type fd /\ p_error pd = d_error fd.
Lemma assigns_split f : Z.land (control f) 0x40 = 0 -> ctrl_info f = 0x72 -> assigns_record f = (12 <=? data_size f).
Proof. intros H1 H2. unfold assigns_record. rewrite H1, H2. reflexivity. Qed.
Lemma data_mem f fd c fd' pd m : mbus_frame_data_parse f fd = Ok (c, fd') -> alike fd pd ->
  exists c' pd' m', data_parse_mem f pd m = Ok (c', pd', m') /\ alike fd' pd' /\
    (if assigns_record f then d_type fd' = DT_VARIABLE /\ parsed_as m m m' c c' (d_var fd') (p_var pd')
     else c' = c /\ m' = m /\ pv_record (p_var pd') = pv_record (p_var pd) /\ (c = 0 -> d_type fd' <> DT_VARIABLE)).
Proof.
  intros H (A1 & A2 & A3). unfold mbus_frame_data_parse, data_parse_mem, assigns_record in *.
  destruct (Z.land (control f) 0x40 =? 0). 2: { injection H as <- <-. eexists _, _, _. split; [reflexivity|]. split; [split; auto|]. split; [reflexivity|]. split; [reflexivity|]. split; [reflexivity|]. discriminate. }
  destruct (Z.eqb_spec (ctrl_info f) 0x70) as [E|N1].
  { rewrite E. cbn [Z.eqb Pos.eqb andb]. destruct (data_size f >? 0).
    - destruct (rd (fdata f) 0) as [e|]; [|discriminate]. cbn [bind] in *. injection H as <- <-. eexists _, _, _. split; [reflexivity|]. split; [split; auto|]. split; [reflexivity|]. split; [reflexivity|]. split; [reflexivity|]. discriminate.
    - injection H as <- <-. eexists _, _, _. split; [reflexivity|]. split; [split; auto|]. split; [reflexivity|]. split; [reflexivity|]. split; [reflexivity|]. discriminate. }
  destruct (Z.eqb_spec (ctrl_info f) 0x73) as [E|N2].
  { rewrite E. cbn [Z.eqb Pos.eqb andb]. destruct (data_size f =? 0).
    - injection H as <- <-. eexists _, _, _. split; [reflexivity|]. split; [split; auto|]. split; [reflexivity|]. split; [reflexivity|]. split; [reflexivity|]. discriminate.
    - rewrite A1. destruct (mbus_data_fixed_parse f (d_fix fd)) as [[r df]|]; [|discriminate]. cbn [bind] in *. injection H as <- <-. eexists _, _, _. split; [reflexivity|]. split; [split; auto|]. split; [reflexivity|]. split; [reflexivity|]. split; [reflexivity|]. discriminate. }
  destruct (Z.eqb_spec (ctrl_info f) 0x72) as [E|N3].
  2: { cbn [andb]. injection H as <- <-. eexists _, _, _. split; [reflexivity|]. split; [split; auto|]. split; [reflexivity|]. split; [reflexivity|]. split; [reflexivity|]. discriminate. }
  cbn [andb]. destruct (Z.eqb_spec (data_size f) 0) as [Z0|Z0].
  { rewrite Z0. cbn [Z.leb Z.compare]. injection H as <- <-. eexists _, _, _. split; [reflexivity|]. split; [split; auto|]. split; [reflexivity|]. split; [reflexivity|]. split; [reflexivity|]. discriminate. }
  destruct (mbus_data_variable_parse f (d_var fd)) as [[r dv]|] eqn:P; [|discriminate]. cbn [bind] in H. injection H as <- <-.
  destruct (Z.leb_spec 12 (data_size f)) as [L|L].
  - destruct (variable_mem f (d_var fd) r dv (p_var pd) m P) as (c' & pv' & m' & E1 & Q); [lia|]. rewrite E1. cbn [bind]. eexists _, _, _. split; [reflexivity|]. split; [split; auto|]. split; [reflexivity|exact Q].
  - unfold mbus_data_variable_parse, variable_parse_mem in *. destruct (Nat.ltb_spec (Z.to_nat (data_size f)) 12); [|lia]. injection P as <- <-. cbn [bind].
    eexists _, _, _. split; [reflexivity|]. split; [split; auto|]. split; [reflexivity|]. split; [reflexivity|]. split; [reflexivity|]. discriminate.
Qed.

(** ** Objects with a list *)
Lemma same_sym m m' : same_memory m m' -> same_memory m' m.
Proof. intros H a. symmetry. apply H. Qed.
Lemma data_free_ok a m0 m1 m fd l : malloc CBlock m0 = (Some a, m1) -> holds_list m1 m (pv_record (p_var fd)) l ->
  exists m', mbus_frame_data_free (Some a) fd m = Ok m' /\ same_memory m0 m' /\ m_fails m' = m_fails m.
Proof.
  intros E H. destruct (malloc_cases CBlock m0) as [(x & E1 & _)|(x & E1 & La & Lo & Ll & F)]; rewrite E1 in E; [discriminate|]. injection E as <- <-.
  destruct (holds_free _ _ _ _ H) as (m2 & E2 & S2 & F2 & _). cbn [mbus_frame_data_free]. rewrite E2. cbn [bind].
  assert (Lm : look m2 (length (m_cells m0)) = Some CBlock) by (rewrite S2; exact La). destruct (free_ok _ _ _ Lm) as (m3 & E3 & L1 & L2 & _ & L4). rewrite E3.
  exists m3. split; [reflexivity|]. split; [|congruence]. intros b. destruct (Nat.eq_dec b (length (m_cells m0))) as [->|N]; [rewrite L1; symmetry; apply look_over; lia|].
  rewrite L2, S2, Lo by assumption. reflexivity.
Qed.
(** Which allocations were used by several steps. *)
Lemma attempts_trans u v m m1 m2 : attempts u m m1 -> attempts v m1 m2 -> attempts (u ++ v) m m2.
Proof. unfold attempts. intros -> ->. apply app_assoc. Qed.
Lemma malloc_attempts c m p m' : malloc c m = (p, m') -> exists u, attempts u m m' /\ (In true u <-> p = None).
Proof.
  intros E. destruct (malloc_cases c m) as [(x & E1 & C & F)|(x & E1 & _ & _ & _ & F)]; rewrite E1 in E; injection E as <- <-.
  - exists [true]. split; [exact F|]. cbn. intuition.
  - destruct F as [F|[F F']]; [exists [false]|exists []]; (split; [unfold attempts; rewrite F, ?F'; reflexivity|]); cbn; intuition discriminate.
Qed.

Lemma assigned_header f fd c fd' : bytes (fdata f) -> mbus_frame_data_parse f fd = Ok (c, fd') -> assigns_record f = true ->
  length (v_header (d_var fd')) = 12%nat /\ bytes (v_header (d_var fd')).
Proof.
  intros Hb P As. unfold assigns_record in As. apply andb_prop in As. destruct As as [As L]. apply andb_prop in As. destruct As as [A1 A2]. apply Z.eqb_eq in A2. apply Z.leb_le in L.
  unfold mbus_frame_data_parse in P. rewrite A1, A2 in P. cbn [Z.eqb Pos.eqb] in P. destruct (data_size f =? 0) eqn:Z0; [apply Z.eqb_eq in Z0; lia|].
  destruct (mbus_data_variable_parse f (d_var fd)) as [[r dv]|] eqn:V; [|discriminate]. cbn [bind] in P. injection P as _ <-. cbn [d_var].
  unfold mbus_data_variable_parse in V. destruct (Nat.ltb_spec (Z.to_nat (data_size f)) 12); [lia|].
  destruct (copy_loop 12 (repeat 0 12) 0 (fdata f) 0) as [h|] eqn:C; [|discriminate]. cbn [bind] in V. apply records_grow in V. destruct V as (g & _ & ->). cbn [v_header].
  split.
  - pose proof (copy_loop_inv _ _ _ _ _ _ C) as [_ I]. rewrite copy_loop_ok in C by (rewrite ?repeat_length; lia). apply ok_inj in C. rewrite <- C. rewrite !app_length, !firstn_length, !skipn_length, repeat_length. lia.
  - eapply copy_loop_bytes; [| |exact C]; [|exact Hb]. apply Forall_forall. intros x I. apply repeat_spec in I. subst x. unfold is_byte. lia.
Qed.
Lemma unassigned_fails f fd c fd' : mbus_frame_data_parse f fd = Ok (c, fd') -> ctrl_info f = 0x72 -> assigns_record f = false -> c = -1.
Proof.
  intros P CI As. unfold assigns_record, mbus_frame_data_parse in *. rewrite CI in *. cbn [Z.eqb Pos.eqb] in *. rewrite andb_true_r in As.
  destruct (Z.land (control f) 0x40 =? 0); [|congruence]. cbn [andb] in As. apply Z.leb_gt in As.
  destruct (data_size f =? 0); [congruence|]. unfold mbus_data_variable_parse in P. destruct (Nat.ltb_spec (Z.to_nat (data_size f)) 12); [|lia]. cbn [bind] in P. congruence.
Qed.
Lemma secondary_mem f m o : bytes (fdata f) -> mbus_frame_get_secondary_address f = Ok o ->
  exists o' m' used, secondary_address_mem f m = Ok (o', m') /\ same_memory m m' /\ attempts used m m' /\ (o' = o \/ In true used /\ (o = None \/ o' = None)).
Proof.
  intros Hb H. unfold mbus_frame_get_secondary_address, secondary_address_mem in *. unfold mbus_frame_data_new.
  destruct (malloc_cases CBlock m) as [(m1 & E1 & C1 & F1)|(m1 & E1 & La & Lo & Ll & F1)]; rewrite E1.
  { exists None, m1, [true]. split; [reflexivity|]. split; [intros a; unfold look; rewrite C1; reflexivity|]. split; [exact F1|]. right. split; [left; reflexivity|auto]. }
  destruct (malloc_attempts _ _ _ _ E1) as (u1 & A1 & B1). assert (N1 : ~ In true u1) by (intros I; apply B1 in I; discriminate).
  destruct (negb (ctrl_info f =? 0x72)) eqn:CI.
  { injection H as <-. destruct (data_free_ok _ m m1 m1 pd_zero [] E1) as (m2 & E2 & S2 & F2); [apply holds_start|]. rewrite E2. cbn [bind].
    exists None, m2, u1. split; [reflexivity|]. split; [exact S2|]. split; [unfold attempts in *; congruence|]. left. reflexivity. }
  destruct (mbus_frame_data_parse f fd_zero) as [[c fd']|] eqn:P; [|discriminate]. cbn [bind] in H.
  destruct (data_mem f fd_zero c fd' pd_zero m1 P) as (c' & pd' & m2 & E2 & Al & Q); [repeat split|]. rewrite E2. cbn [bind].
  destruct (assigns_record f) eqn:As.
  - destruct Q as (_ & l' & u2 & Q1 & Q2 & Q3 & _ & Q5). destruct (data_free_ok _ m m1 m2 pd' l' E1 Q1) as (m3 & E3 & S3 & F3).
    assert (A3 : attempts (u1 ++ u2) m m3) by (unfold attempts in *; rewrite F3, <- app_assoc; congruence).
    destruct Q5 as [(-> & _ & _ & N2)|(-> & I & _)].
    + destruct (c =? -1).
      * injection H as <-. rewrite E3. cbn [bind]. exists None, m3, (u1 ++ u2). auto.
      * rewrite Q2. cbv zeta in H |- *. set (h := v_header (d_var fd')) in *.
        destruct (mbus_data_bcd_decode_hex h 4) as [id|]; [|discriminate]. cbn [bind] in *. destruct (rd h 4) as [b4|]; [|discriminate]. cbn [bind] in *. destruct (rd h 5) as [b5|]; [|discriminate]. cbn [bind] in *.
        destruct (rd h 6) as [b6|]; [|discriminate]. cbn [bind] in *. destruct (rd h 7) as [b7|]; [|discriminate]. cbn [bind] in *. injection H as <-. rewrite E3. cbn [bind]. eexists _, m3, (u1 ++ u2). split; [reflexivity|]. auto.
    + change (-2 =? -1) with false. cbv iota. rewrite Q2. assert (Lh : length (v_header (d_var fd')) = 12%nat /\ bytes (v_header (d_var fd'))) by (eapply assigned_header; eassumption). destruct Lh as [Lh Bh].
      set (h := v_header (d_var fd')) in *. cbv zeta.
      assert (Bd : exists id, mbus_data_bcd_decode_hex h 4 = Ok id) by (eexists; apply bcd_hex_spec; [exact Bh|lia|lia]).
      destruct Bd as (id & Bd). cbv zeta in H. rewrite Bd in *. cbn [bind] in *. rewrite !rd_ok by lia. cbn [bind]. rewrite E3. cbn [bind]. eexists _, m3, (u1 ++ u2). split; [reflexivity|]. split; [exact S3|]. split; [exact A3|].
      destruct (c =? -1).
      * right. injection H as <-. split; [apply in_or_app; right; exact I|auto].
      * left. rewrite !rd_ok in H by lia. cbn [bind] in H. apply ok_inj in H. exact H.
  - destruct Q as (-> & -> & Q & _). destruct (data_free_ok _ m m1 m1 pd' [] E1) as (m3 & E3 & S3 & F3). { rewrite Q. apply holds_start. }
    assert (A3 : attempts u1 m m3) by (unfold attempts in *; congruence).
    assert (c = -1). { apply negb_false_iff in CI. apply Z.eqb_eq in CI. eapply unassigned_fails; eassumption. }
    subst c. change (-1 =? -1) with true in *. cbv iota in *. injection H as <-. rewrite E3. cbn [bind]. exists None, m3, u1. auto.
Qed.

(** ** Appending a list, freeing frames *)
Lemma chain_join m m' p l b r p2 l2 : chain m p (l ++ [(b, r)]) -> look m' b = Some (CRec r p2) -> (forall c, In c (map fst l) -> look m' c = look m c) ->
  chain m' p2 l2 -> chain m' p (l ++ (b, r) :: l2).
Proof.
  revert p. induction l as [|[c q] l IH]; intros p H Eb K Ch; cbn in *.
  - inversion H as [|b' r' next k E K']; subst. econstructor; [exact Eb|exact Ch].
  - inversion H as [|b' r' next k E K']; subst. econstructor; [rewrite K by auto; exact E|]. apply IH; auto.
Qed.
Lemma append_list head m l p2 l2 : chain m head l -> chain m p2 l2 -> (forall a, In a (map fst l) -> ~ In a (map fst l2)) ->
  exists head' m', mbus_data_record_append head p2 m = Ok (head', m') /\ chain m' head' (l ++ l2) /\ (head <> None -> head' = head) /\
    (forall c, look m' c = None <-> look m c = None) /\ (forall c, ~ In c (map fst l) -> look m' c = look m c) /\ m_fails m' = m_fails m.
Proof.
  intros H H2 D. destruct p2 as [a2|].
  2: { inversion H2; subst. exists head, m. cbn. rewrite app_nil_r. destruct head; intuition. }
  destruct head as [h|].
  - destruct (record_last_chain (S (length (m_cells m))) h m l H) as (b & s & l' & E1 & -> & Lb); [apply chain_short in H; lia|].
    cbn [mbus_data_record_append]. rewrite E1. cbn [bind]. rewrite Lb. destruct (store_ok b m _ (CRec s (Some a2)) Lb) as (m' & E2 & L1 & L2 & L3 & L4). rewrite E2. cbn [bind].
    exists (Some h), m'. split; [reflexivity|]. pose proof (chain_nodup _ _ _ H) as ND. rewrite map_app in ND, D. cbn in ND, D.
    assert (Db : ~ In b (map fst l2)) by (apply D; apply in_or_app; right; left; reflexivity).
    split.
    + rewrite <- app_assoc. cbn [app]. eapply chain_join; [exact H|exact L1| |].
      * intros c I. apply L2. intros ->. apply NoDup_remove_2 in ND. apply ND. rewrite app_nil_r. exact I.
      * eapply chain_keep; [exact H2|]. intros c I. apply L2. intros ->. contradiction.
    + split; [reflexivity|]. split.
      * intros c. destruct (Nat.eq_dec c b) as [->|N]; [rewrite L1, Lb; split; discriminate|rewrite L2 by exact N; tauto].
      * split; [|exact L4]. intros c I. apply L2. intros ->. apply I. rewrite map_app. apply in_or_app. right. left. reflexivity.
  - inversion H; subst. exists (Some a2), m. split; [reflexivity|]. split; [exact H2|]. split; [congruence|]. split; [tauto|]. auto.
Qed.
Lemma fchain_det m p l l' : fchain m p l -> fchain m p l' -> l = l'.
Proof.
  intros H. revert l'. induction H as [|a r next l E H IH]; intros l' H'; inversion H' as [|a' r' next' k E' K]; subst; [reflexivity|].
  rewrite E in E'. injection E' as <- <-. f_equal. apply IH. assumption.
Qed.
Lemma fchain_suffix m p l a r l2 : fchain m p l -> (exists l1, l = l1 ++ (a, r) :: l2) -> fchain m (Some a) ((a, r) :: l2).
Proof.
  intros H. induction H as [|b s next l E H IH]; intros [[|x l1] E1]; cbn in E1; try discriminate.
  - injection E1 as -> -> ->. econstructor; eassumption.
  - injection E1 as _ E1. apply IH. eauto.
Qed.
Lemma fchain_nodup m p l : fchain m p l -> NoDup (map fst l).
Proof.
  intros H. induction H as [|a r next l E H IH]; [constructor|]. cbn. constructor; [|assumption].
  intros I. apply in_map_iff in I. destruct I as ([b s] & Eb & I). cbn in Eb. subst b. apply in_split in I. destruct I as (l1 & l2 & ->).
  assert (A : fchain m (Some a) ((a, s) :: l2)) by (eapply fchain_suffix; [exact H|eauto]).
  assert (B : fchain m (Some a) ((a, r) :: l1 ++ (a, s) :: l2)) by (econstructor; eassumption).
  pose proof (fchain_det _ _ _ _ A B) as Q. apply (f_equal (@length _)) in Q. cbn in Q. rewrite app_length in Q. cbn in Q. lia.
Qed.
Lemma fchain_look m p l a : fchain m p l -> In a (map fst l) -> exists r next, look m a = Some (CFrame r next).
Proof. intros H. induction H as [|b r next l E H IH]; intros I; [destruct I|]. cbn in I. destruct I as [<-|I]; [eauto|auto]. Qed.
Lemma fchain_short m p l : fchain m p l -> (length l <= length (m_cells m))%nat.
Proof.
  intros H. rewrite <- (map_length fst l). apply bounded_length; [eapply fchain_nodup; eassumption|]. intros a I. destruct (fchain_look _ _ _ _ H I) as (r & nx & E). eapply look_bound. exact E.
Qed.
Lemma frame_free_chain fuel : forall p m l, fchain m p l -> (length l < fuel)%nat -> exists m', frame_free_from fuel p m = Ok m' /\ released (map fst l) m m' /\ m_fails m' = m_fails m.
Proof.
  induction fuel as [|fuel IH]; intros p m l H F; [lia|]. pose proof (fchain_nodup _ _ _ H) as ND. pose proof H as H0. inversion H as [|a r next k E K]; subst.
  - exists m. split; [reflexivity|]. split; [|auto]. split; [intros a []|auto].
  - cbn [frame_free_from]. rewrite E. cbn in F. destruct (IH next m k K ltac:(lia)) as (m1 & E1 & (R1 & R2) & F1). rewrite E1. cbn [bind].
    cbn in ND. inversion ND as [|? ? N1 N2]; subst. assert (Ea : look m1 a = Some (CFrame r next)) by (rewrite R2 by exact N1; exact E).
    destruct (free_ok a m1 _ Ea) as (m2 & E2 & L1 & L2 & L3 & L4). exists m2. split; [exact E2|]. split; [|congruence]. split.
    + intros b I. cbn in I. split.
      * destruct (fchain_look _ _ _ b H0 I) as (r' & nx & Eb). rewrite Eb. discriminate.
      * destruct (Nat.eq_dec b a) as [->|N]; [exact L1|]. rewrite L2 by exact N. apply R1. destruct I as [I|I]; [congruence|exact I].
    + intros b I. cbn in I. rewrite L2, R2 by (intuition congruence). reflexivity.
Qed.
Lemma frame_free_ok p m l : fchain m p l -> exists m', mbus_frame_free p m = Ok ((match p with None => -1 | Some _ => 0 end), m') /\ released (map fst l) m m' /\ m_fails m' = m_fails m.
Proof.
  intros H. destruct p as [a|].
  - destruct (frame_free_chain (S (length (m_cells m))) _ m l H) as (m' & E & R); [apply fchain_short in H; lia|]. unfold mbus_frame_free. rewrite E. exists m'. auto.
  - inversion H; subst. exists m. split; [reflexivity|]. split; [|reflexivity]. split; [intros a []|auto].
Qed.
