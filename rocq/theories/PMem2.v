(** Proofs about the XML conversions under shortage of memory. *)
From Coq Require Import String.
From Coq Require Import List.
From Verif Require Import CBase PBase CStr MFrame MCodec MVar SVar MText MXml SXml PXml PXml2 PXml3 PXml4 MMem SMem PMem.
Local Open Scope Z_scope.

(** The block [b] of [m] has become the block [b'] of [m'], nothing else changed. *)
Definition moved (b b' : nat) (m m' : mem) : Prop :=
  look m b = Some CBlock /\ look m' b' = Some CBlock /\ (b' <> b -> look m b' = None /\ look m' b = None) /\
  (forall a, a <> b -> a <> b' -> look m' a = look m a).
Lemma moved_refl b m : look m b = Some CBlock -> moved b b m m.
Proof. intros H. repeat split; auto; congruence. Qed.
Lemma moved_trans b b1 b2 m m1 m2 : moved b b1 m m1 -> moved b1 b2 m1 m2 -> (b2 = b1 \/ look m b2 = None) -> moved b b2 m m2.
Proof.
  intros (A1 & A2 & A3 & A4) (B1 & B2 & B3 & B4) D. split; [exact A1|]. split; [exact B2|]. split.
  - intros N. destruct (Nat.eq_dec b2 b1) as [->|N1].
    + destruct (A3 N) as [X Y]. split; [exact X|]. destruct (Nat.eq_dec b b1) as [->|Nb]; [congruence|]. rewrite B4 by congruence. exact Y.
    + destruct D as [D|D]; [congruence|]. split; [exact D|]. destruct (Nat.eq_dec b b1) as [->|Nb]; [apply B3; assumption|]. rewrite B4 by congruence. apply A3. congruence.
  - intros a N N2. destruct (Nat.eq_dec a b1) as [->|N1].
    + assert (look m b1 = None) by (apply A3; congruence). assert (look m2 b1 = None) by (apply B3; congruence). congruence.
    + rewrite B4, A4 by assumption. reflexivity.
Qed.
(** Enlarging a block. *)
Lemma realloc_ok b m : look m b = Some CBlock -> exists q m' u, realloc b CBlock m = Ok (q, m') /\ attempts u m m' /\ (length (m_cells m) <= length (m_cells m'))%nat /\
  match q with None => In true u /\ same_memory m m' | Some b' => ~ In true u /\ moved b b' m m' /\ (length (m_cells m) <= b')%nat end.
Proof.
  intros H. unfold realloc. destruct (malloc_cases CBlock m) as [(m1 & E & C & F)|(m1 & E & La & Lo & Ll & F)]; rewrite E.
  - exists None, m1, [true]. split; [reflexivity|]. split; [exact F|]. split; [rewrite C; lia|]. split; [left; reflexivity|]. intros a. unfold look. rewrite C. reflexivity.
  - destruct (malloc_attempts _ _ _ _ E) as (u & U1 & U2). pose proof (look_bound _ _ _ H) as Hb. assert (Hm : look m1 b = Some CBlock) by (rewrite Lo by lia; exact H).
    destruct (free_ok b m1 _ Hm) as (m2 & E2 & L1 & L2 & L3 & L4). rewrite E2. cbn [bind]. exists (Some (length (m_cells m))), m2, u. split; [reflexivity|]. split; [unfold attempts in *; congruence|].
    split; [lia|]. split; [intros I; apply U2 in I; discriminate|]. split; [|lia]. split; [exact H|]. split; [rewrite L2 by lia; exact La|]. split; [intros _; split; [apply look_over; lia|exact L1]|].
    intros a N1 N2. rewrite L2, Lo by assumption. reflexivity.
Qed.

Section Doc.
  Variable stamp : Z -> option (list Z).

  (** The record loop. *)
  Definition looped (b : nat) (m : mem) (i : Z) (n : nat) (t : list Z) (out : option (nat * doc * Z) * nat * mem) : Prop :=
    exists o b' m' used, out = (o, b', m') /\ attempts used m m' /\ moved b b' m m' /\ (b' = b \/ (length (m_cells m) <= b')%nat) /\ (length (m_cells m) <= length (m_cells m'))%nat /\
    ((exists d', o = Some (b', d', i + Z.of_nat n) /\ roomy d' t /\ ~ In true used) \/ (o = None /\ In true used)).
  Lemma doc_loop_mem l : forall fuel b d t p i fc m ts, chain m p l -> (length l < fuel)%nat -> look m b = Some CBlock -> texts_ok stamp (map snd l) i fc ts -> roomy d t ->
    exists out, doc_records_mem stamp fuel b d p i fc m = Ok out /\ looped b m i (length l) (t ++ concat ts) out.
  Proof.
    induction l as [|[a r] l IH]; intros fuel b d t p i fc m ts C F Lb T R; (destruct fuel as [|fuel]; [cbn in F; lia|]); inversion C as [|a' r' next k E K]; subst.
    - cbn [doc_records_mem]. destruct ts; [|contradiction]. eexists. split; [reflexivity|]. exists (Some (b, d, i)), b, m, []. split; [reflexivity|]. split; [reflexivity|]. split; [apply moved_refl; exact Lb|]. split; [auto|]. split; [lia|].
      left. exists d. cbn [length concat]. rewrite app_nil_r, Z.add_0_r. cbn. auto.
    - cbn [doc_records_mem]. rewrite E. cbn [map snd] in T. destruct ts as [|x ts]; [contradiction|]. cbn [texts_ok] in T. destruct T as (T1 & T2 & T3 & T4).
      assert (Step : exists q m1 u, (if (b_len d <=? length (b_buf d))%nat && (length (b_buf d) - b_len d <? 1024)%nat then realloc b CBlock m else Ok (Some b, m)) = Ok (q, m1) /\ attempts u m m1 /\ (length (m_cells m) <= length (m_cells m1))%nat /\
        match q with None => In true u /\ same_memory m m1 | Some b1 => ~ In true u /\ moved b b1 m m1 /\ (b1 = b \/ (length (m_cells m) <= b1)%nat) end).
      { destruct ((b_len d <=? length (b_buf d))%nat && (length (b_buf d) - b_len d <? 1024)%nat).
        - destruct (realloc_ok b m Lb) as (q & m1 & u & E1 & A1 & B1 & Q). exists q, m1, u. split; [exact E1|]. split; [exact A1|]. split; [exact B1|]. destruct q; intuition.
        - exists (Some b), m, []. split; [reflexivity|]. split; [reflexivity|]. split; [lia|]. split; [auto|]. split; [apply moved_refl; exact Lb|auto]. }
      destruct Step as (q & m1 & u & E1 & A1 & B1 & Q). rewrite E1. cbn [bind]. destruct q as [b1|].
      2: { destruct Q as [Q1 Q2]. eexists. split; [reflexivity|]. exists None, b, m1, u. split; [reflexivity|]. split; [exact A1|]. split; [|split; [auto|split; [exact B1|right; auto]]].
           split; [exact Lb|]. split; [rewrite Q2; exact Lb|]. split; [congruence|]. intros c _ _. apply Q2. }
      destruct Q as (Q1 & Q2 & Q3). rewrite T1. cbn [bind]. destruct R as (R1 & R2 & R3 & R4). destruct (grow_ok d t R1 R2) as (G1 & G2 & G3).
      destruct (PXml2.append_ok (doc_grow d) t x G1 ltac:(lia)) as (d1 & E2 & D1 & D2). rewrite E2. cbn [bind].
      assert (K1 : chain m1 next l).
      { eapply chain_keep; [exact K|]. intros c I. destruct (chain_look _ _ _ c K I) as (r' & nx & Ec). destruct Q2 as (_ & _ & Q2 & Q4). apply Q4.
        - intros ->. rewrite Lb in Ec. discriminate.
        - intros ->. destruct Q3 as [Q3|Q3]; [subst b1; rewrite Lb in Ec; discriminate|]. apply look_bound in Ec. lia. }
      destruct (IH fuel b1 d1 (t ++ x) next (i + 1) fc m1 ts K1) as (out & E3 & o & b2 & m2 & u2 & -> & A2 & M2 & X2 & Y2 & Z2); [cbn in F; lia|apply Q2|exact T4| |].
      { split; [assumption|]. rewrite nonul_app, app_length. repeat split; try assumption; lia. }
      exists (o, b2, m2). split; [exact E3|]. exists o, b2, m2, (u ++ u2). split; [reflexivity|]. split; [eapply attempts_trans; eassumption|].
      assert (X3 : b2 = b1 \/ (length (m_cells m) <= b2)%nat) by (destruct X2; [auto|right; lia]).
      split; [eapply moved_trans; [exact Q2|exact M2|]|].
      { destruct X3 as [X3|X3]; [auto|right; apply look_over; exact X3]. }
      split; [destruct X3 as [->|X3]; auto|]. split; [lia|]. destruct Z2 as [(d2 & -> & Rm & N)|(-> & I)]; [left|right].
      + exists d2. cbn [length concat]. replace (i + Z.of_nat (S (length l))) with (i + 1 + Z.of_nat (length l)) by lia. split; [reflexivity|]. rewrite <- app_assoc in Rm. split; [exact Rm|].
        intros I. apply in_app_or in I. tauto.
      + split; [reflexivity|]. apply in_or_app. right. exact I.
  Qed.

  (** A block beside the objects of [m0]. *)
  Definition own (b : nat) (m0 m : mem) : Prop := look m0 b = None /\ look m b = Some CBlock /\ forall a, a <> b -> look m a = look m0 a.
  Lemma own_added b m0 m : own b m0 m -> added [b] m0 m.
  Proof.
    intros (A & B & C). split; [constructor; [intros []|constructor]|]. split.
    - intros a [<-|[]]. split; [exact A|congruence].
    - intros a N. apply C. intros ->. apply N. left. reflexivity.
  Qed.
  Lemma malloc_own b m m1 : malloc CBlock m = (Some b, m1) -> own b m m1.
  Proof.
    intros E. destruct (malloc_cases CBlock m) as [(x & E1 & _)|(x & E1 & La & Lo & Ll & F)]; rewrite E1 in E; [discriminate|]. injection E as <- <-.
    split; [apply look_over; lia|]. split; [exact La|]. intros a N. apply Lo. exact N.
  Qed.
  Lemma malloc_none c m m1 : malloc c m = (None, m1) -> same_memory m m1 /\ attempts [true] m m1.
  Proof.
    intros E. destruct (malloc_cases c m) as [(x & E1 & C & F)|(x & E1 & _)]; rewrite E1 in E; [|discriminate]. injection E as <-. split; [intros a; unfold look; rewrite C; reflexivity|exact F].
  Qed.
  (** A block and a list of records beside the objects of [m0]. *)
  Definition own_list (b : nat) (p : option nat) (l : list (nat * rec)) (m0 m : mem) : Prop :=
    chain m p l /\ look m b = Some CBlock /\ look m0 b = None /\ (forall a, In a (map fst l) -> look m0 a = None) /\ (forall a, ~ In a (map fst l) -> a <> b -> look m a = look m0 a).
  Lemma own_parsed b m0 m1 m2 p l : own b m0 m1 -> holds_list m1 m2 p l -> own_list b p l m0 m2.
  Proof.
    intros (O1 & O2 & O3) (C & B & Kp & Len). pose proof (look_bound _ _ _ O2) as Hb.
    assert (Nb : ~ In b (map fst l)) by (intros I; apply B in I; lia).
    split; [exact C|]. split; [rewrite Kp by exact Nb; exact O2|]. split; [exact O1|]. split.
    - intros a I. specialize (B a I). rewrite <- O3 by lia. apply look_over. exact B.
    - intros a NI N. rewrite Kp, O3 by assumption. reflexivity.
  Qed.
  Lemma own_malloc b m0 m1 m2 p l : holds_list m0 m1 p l -> malloc CBlock m1 = (Some b, m2) -> own_list b p l m0 m2.
  Proof.
    intros (C & B & Kp & Len) E. destruct (malloc_cases CBlock m1) as [(x & E1 & _)|(x & E1 & La & Lo & Ll & F)]; rewrite E1 in E; [discriminate|]. injection E as <- <-.
    assert (Nb : forall a, In a (map fst l) -> a <> length (m_cells m1)). { intros a I ->. destruct (chain_look _ _ _ _ C I) as (r & nx & L). apply look_bound in L. lia. }
    split; [eapply chain_keep; [exact C|intros a I; apply Lo; auto]|]. split; [exact La|]. split; [apply look_over; exact Len|]. split; [intros a I; apply look_over; auto|].
    intros a NI N. rewrite Lo, Kp by assumption. reflexivity.
  Qed.
  Lemma doc_list_own m0 m2 b p l d t i fc ts : own_list b p l m0 m2 -> texts_ok stamp (map snd l) i fc ts -> roomy d t ->
    exists o b' m3 used, doc_list stamp b d p i fc m2 = Ok (o, b', m3) /\ attempts used m2 m3 /\ own_list b' p l m0 m3 /\
    ((exists d' m4, o = Some (b', d', i + Z.of_nat (length l)) /\ roomy d' (t ++ concat ts) /\ ~ In true used /\ mbus_data_record_free p m3 = Ok m4 /\ own b' m0 m4 /\ m_fails m4 = m_fails m3) \/
     (o = None /\ In true used /\ exists m4 m5, free (Some b') m3 = Ok m4 /\ mbus_data_record_free p m4 = Ok m5 /\ same_memory m0 m5 /\ m_fails m5 = m_fails m3)).
  Proof.
    intros (C & Lb & O1 & B & Kp) T R. pose proof (look_bound _ _ _ Lb) as Hb.
    assert (Nb : ~ In b (map fst l)). { intros I. destruct (chain_look _ _ _ _ C I) as (r & nx & L). congruence. }
    destruct (doc_loop_mem l (S (length (m_cells m2))) b d t p i fc m2 ts C) as (out & E & o & b' & m3 & used & -> & A & M & X & Y & Q); [apply chain_short in C; lia|exact Lb|exact T|exact R|].
    exists o, b', m3, used. split; [exact E|]. split; [exact A|]. destruct M as (_ & M2 & M3 & M4).
    assert (Nb' : ~ In b' (map fst l)). { intros I. destruct X as [->|X]; [contradiction|]. destruct (chain_look _ _ _ _ C I) as (r & nx & L). apply look_bound in L. lia. }
    assert (C3 : chain m3 p l). { eapply chain_keep; [exact C|]. intros c I. apply M4; intros ->; contradiction. }
    assert (L0 : look m0 b' = None). { destruct X as [->|X]; [exact O1|]. rewrite <- Kp by (auto; lia). apply look_over. lia. }
    assert (K3 : forall a, ~ In a (map fst l) -> a <> b' -> look m3 a = look m0 a).
    { intros a NI Nab. destruct (Nat.eq_dec a b) as [->|Na]; [destruct M3 as [_ M3]; congruence|]. rewrite M4, Kp by assumption. reflexivity. }
    split; [split; auto|].
    destruct Q as [(d' & -> & Rd & N)|(-> & I)]; [left|right].
    - destruct (record_free_ok p m3 l C3) as (m4 & E4 & (R1 & R2) & _ & F4). exists d', m4. split; [reflexivity|]. split; [exact Rd|]. split; [exact N|]. split; [exact E4|]. split; [|exact F4].
      split; [exact L0|]. split; [rewrite R2 by exact Nb'; exact M2|]. intros a Na. destruct (in_dec Nat.eq_dec a (map fst l)) as [I|NI].
      + destruct (R1 a I) as [_ ->]. symmetry. auto.
      + rewrite R2 by exact NI. auto.
    - split; [reflexivity|]. split; [exact I|]. destruct (free_ok b' m3 _ M2) as (m4 & E4 & L1 & L2 & _ & F4).
      assert (C4 : chain m4 p l). { eapply chain_keep; [exact C3|]. intros c J. apply L2. intros ->. contradiction. }
      destruct (record_free_ok p m4 l C4) as (m5 & E5 & (R1 & R2) & _ & F5). exists m4, m5. split; [exact E4|]. split; [exact E5|]. split; [|congruence].
      intros a. destruct (in_dec Nat.eq_dec a (map fst l)) as [J|NI].
      + destruct (R1 a J) as [_ ->]. symmetry. auto.
      + rewrite R2 by exact NI. destruct (Nat.eq_dec a b') as [->|Nab]; [congruence|]. rewrite L2 by exact Nab. auto.
  Qed.

  (** Parsing a telegram. *)
  Lemma telegram_mem f h its t pd m : var_telegram f h its t ->
    exists c' pd' m' l' es' used, data_parse_mem f pd m = Ok (c', pd', m') /\ (c' = 0 \/ c' = -2) /\ p_type pd' = DT_VARIABLE /\ pv_header (p_var pd') = h /\
      holds_list m m' (pv_record (p_var pd')) l' /\ map snd l' = map entry_obj es' /\ attempts used m m' /\ starts es' (entries its t) /\ (es' = entries its t <-> ~ In true used).
  Proof.
    intros T. set (fd := mkFD (mkVar (repeat 0 12) [] 0 0) (p_fix pd) (p_type pd) (p_error pd)).
    pose proof (telegram_parse f h its t fd T) as P. destruct (telegram_reply (fun _ => None) (fun _ => I) f h its t T) as [As _].
    destruct (data_mem f fd 0 _ pd m P) as (c' & pd' & m' & E & (_ & Ty & _) & Q); [repeat split|]. rewrite As in Q. destruct Q as (_ & l' & used & Q1 & Q2 & Q3 & _ & Q5).
    cbn [d_type d_var] in *. assert (Rs : v_records (dvar_of h its t) = map entry_obj (entries its t)) by (symmetry; apply entries_objs).
    exists c', pd', m', l'. destruct Q5 as [(-> & Q6 & _ & Q8)|(-> & I & k & K & Q6)].
    - exists (entries its t), used. rewrite Q6. split; [exact E|]. split; [auto|]. split; [exact Ty|]. split; [exact Q2|]. split; [exact Q1|]. split; [exact Rs|]. split; [exact Q3|]. split; [exists []; rewrite app_nil_r; reflexivity|]. tauto.
    - exists (firstn k (entries its t)), used. rewrite Q6, Rs, firstn_map. split; [exact E|]. split; [auto|]. split; [exact Ty|]. split; [exact Q2|]. split; [exact Q1|]. split; [reflexivity|]. split; [exact Q3|].
      split; [exists (skipn k (entries its t)); symmetry; apply firstn_skipn|]. destruct K as [K|K]; [|discriminate]. rewrite Rs, map_length in K. split; [|tauto].
      intros H. apply (f_equal (@length _)) in H. rewrite firstn_length in H. lia.
  Qed.

  Hypothesis Hst : forall i, stamp_ok (stamp i).
  Notation ents p := (entries (snd (fst p)) (snd p)).
  Notation tel f p := (var_telegram f (fst (fst p)) (snd (fst p)) (snd p)).
  Lemma starts_forall {A} (P : A -> Prop) l' l : starts l' l -> Forall P l -> Forall P l'.
  Proof. intros [r ->] H. apply Forall_app in H. apply H. Qed.
  Lemma starts_length {A} (l' l : list A) : starts l' l -> (length l' <= length l)%nat.
  Proof. intros [r ->]. rewrite app_length. lia. Qed.

  Lemma chain_mem fs tels : Forall2 (fun f p => tel f p) fs tels -> forall pd b d t i fc m0 m, own b m0 m -> roomy d t -> Forall (Forall small_entry) (map (fun p => ents p) tels) ->
    0 <= i -> i + Z.of_nat (length (concat (map (fun p => ents p) tels))) < 10 ^ 9 -> -1 <= fc -> fc + Z.of_nat (length tels) < 10 ^ 9 ->
    exists o m' used, xml_chain_mem stamp fs pd b d i fc m = Ok (o, m') /\ attempts used m m' /\
    match o with
    | None => same_memory m0 m' /\ In true used
    | Some (text, b') => own b' m0 m' /\ exists ess' tss recs, Forall2 starts ess' (map (fun p => ents p) tels) /\ text = t ++ concat (map (@concat Z) tss) ++ XML_CLOSE /\
        telegrams_nodes stamp ess' i fc recs /\ renders (concat (map (@concat Z) tss)) recs /\ (ess' = map (fun p => ents p) tels <-> ~ In true used)
    end.
  Proof.
    induction 1 as [|f p fs tels Hf _ IH]; intros pd b d t i fc m0 m Ow R Sm Hi Hn Hf1 Hf2.
    - cbn [xml_chain_mem]. destruct (close_ok d t R) as (d2 & E2 & T2). rewrite E2. cbn [bind]. rewrite T2. eexists _, m, []. split; [reflexivity|]. split; [reflexivity|]. split; [exact Ow|].
      exists [], [], []. split; [constructor|]. split; [reflexivity|]. split; [reflexivity|]. split; [apply renders_nil|]. cbn. tauto.
    - cbn [map concat length] in Hn, Hf2. rewrite app_length in Hn. cbn [map] in Sm. inversion_clear Sm as [|? ? S1 S2]. cbn [xml_chain_mem].
      destruct (telegram_mem f _ _ _ pd m Hf) as (c' & pd' & m1 & l & es & u1 & E1 & Hc & Ty & Hh & HL & Ms & A1 & St & U1). rewrite E1. cbn [bind].
      assert (Hc1 : c' =? -1 = false) by (destruct Hc as [->| ->]; reflexivity). rewrite Hc1.
      pose proof (starts_length _ _ St) as Sl. assert (Ll : length l = length es) by (rewrite <- (map_length snd l), Ms, map_length; reflexivity).
      destruct (entries_render stamp Hst es i fc) as (ts & ns & T & En & Rn); [eapply starts_forall; [exact St|apply entries_wf; apply Hf]|eapply starts_forall; [exact St|exact S1]|lia|lia|lia|].
      rewrite <- Ms in T.
      destruct (doc_list_own m0 m1 b (pv_record (p_var pd')) l d t i fc ts (own_parsed _ _ _ _ _ _ Ow HL) T R) as (o & b2 & m3 & u2 & E3 & A3 & _ & Q). rewrite E3. cbn [bind].
      destruct Q as [(d' & m4 & -> & Rd & N2 & E4 & Ow4 & F4)|(-> & I2 & m4 & m5 & E4 & E5 & Sa & F5)].
      + rewrite E4. cbn [bind]. rewrite Ll.
        destruct (IH pd' b2 d' (t ++ concat ts) (i + Z.of_nat (length es)) (fc + 1) m0 m4 Ow4 Rd S2 ltac:(lia) ltac:(lia) ltac:(lia) ltac:(lia)) as (o & m' & u3 & E6 & A6 & Q). rewrite E6.
        exists o, m', (u1 ++ u2 ++ u3). split; [reflexivity|]. split; [eapply attempts_trans; [exact A1|]; eapply attempts_trans; [exact A3|]; unfold attempts in *; congruence|].
        destruct o as [[text b']|].
        * destruct Q as (Q1 & ess' & tss & recs & Q2 & -> & Q4 & Q5 & Q6). split; [exact Q1|]. exists (es :: ess'), (ts :: tss), (ns ++ recs). split; [constructor; assumption|].
          split; [cbn [map concat]; rewrite <- !app_assoc; reflexivity|]. split; [cbn [telegrams_nodes]; exists ns, recs; auto|]. split; [cbn [map concat]; apply renders_app; assumption|].
          cbn [map]. split.
          -- intros H. injection H as H1 H2. intros I. apply in_app_or in I. destruct I as [I|I]; [apply U1 in H1; contradiction|]. apply in_app_or in I. destruct I as [I|I]; [contradiction|]. apply Q6 in H2. contradiction.
          -- intros H. f_equal; [apply U1|apply Q6]; intros I; apply H; rewrite !in_app_iff; tauto.
        * destruct Q as [Q1 Q2]. split; [exact Q1|]. rewrite !in_app_iff. tauto.
      + rewrite E4. cbn [bind]. rewrite E5. cbn [bind]. exists None, m5, (u1 ++ u2). split; [reflexivity|]. split; [eapply attempts_trans; [exact A1|]; unfold attempts in *; congruence|]. split; [exact Sa|]. rewrite in_app_iff. tauto.
  Qed.

  Lemma frame_xml_shortage f fs h its t tels m : var_telegram f h its t -> Forall2 (fun f p => tel f p) fs tels ->
    let ess := entries its t :: map (fun p => ents p) tels in
    Forall (Forall small_entry) ess -> Z.of_nat (length (concat ess)) + Z.of_nat (length ess) < 10 ^ 9 ->
    exists o m' used, frame_xml_mem stamp f fs m = Ok (o, m') /\ attempts used m m' /\
    match o with
    | None => same_memory m m' /\ In true used
    | Some (text, b) => added [b] m m' /\ exists ess', Forall2 starts ess' ess /\ document stamp h ess' text /\ (ess' = ess <-> ~ In true used)
    end.
  Proof.
    intros T HF ess Sm Hn. unfold ess in Sm, Hn. cbn [concat length] in Hn. rewrite app_length, map_length in Hn. inversion_clear Sm as [|? ? S1 S2]. unfold frame_xml_mem.
    destruct (telegram_mem f h its t pd_zero m T) as (c' & pd' & m1 & l & es & u1 & E1 & Hc & Ty & Hh & HL & Ms & A1 & St & U1). rewrite E1. cbn [bind].
    assert (Hc1 : c' =? -1 = false) by (destruct Hc as [->| ->]; reflexivity). rewrite Hc1, Ty.
    change (DT_VARIABLE =? DT_ERROR) with false. change (DT_VARIABLE =? DT_FIXED) with false. change (DT_VARIABLE =? DT_VARIABLE) with true. cbv iota. cbv zeta.
    set (fc := match fs with [] => -1 | _ => 0 end).
    assert (Lf : length fs = length tels) by (clear - HF; induction HF; cbn; congruence).
    destruct (malloc CBlock m1) as [[b|] m2] eqn:Em.
    2: { destruct (malloc_none _ _ _ Em) as [Sa Ab]. assert (HL2 : holds_list m m2 (pv_record (p_var pd')) l).
         { destruct HL as (H1 & H2 & H3 & H4). split; [eapply chain_keep; [exact H1|intros; apply Sa]|]. split; [exact H2|]. split; [intros a I; rewrite Sa; auto|].
           unfold malloc in Em. destruct (m_fails m1) as [|[|] ?]; try discriminate. injection Em as <-. exact H4. }
         destruct (holds_free _ _ _ _ HL2) as (m3 & E3 & S3 & F3 & _). rewrite E3. cbn [bind]. exists None, m3, (u1 ++ [true]). split; [reflexivity|].
         split; [eapply attempts_trans; [exact A1|]; unfold attempts in *; congruence|]. split; [exact S3|]. apply in_or_app. right. left. reflexivity. }
    destruct (malloc_attempts _ _ _ _ Em) as (u2 & A2 & B2). assert (N2 : ~ In true u2) by (intros I; apply B2 in I; discriminate).
    destruct (header_renders h (telegram_hbytes f h its t T)) as (x & slave & Hx & Hs & Rx). { apply T. }
    rewrite Hh. destruct (start_ok h x Hx) as (d & Es & R). rewrite Es. cbn [bind].
    pose proof (starts_length _ _ St) as Sl. assert (Ll : length l = length es) by (rewrite <- (map_length snd l), Ms, map_length; reflexivity).
    destruct (entries_render stamp Hst es 0 fc) as (ts & ns & Tx & En & Rn); [eapply starts_forall; [exact St|apply entries_wf; apply T]|eapply starts_forall; [exact St|exact S1]|lia|lia|unfold fc; destruct fs; lia|].
    rewrite <- Ms in Tx.
    destruct (doc_list_own m m2 b (pv_record (p_var pd')) l d _ 0 fc ts (own_malloc _ _ _ _ _ _ HL Em) Tx R) as (o & b2 & m3 & u3 & E3 & A3 & _ & Q). rewrite E3. cbn [bind].
    destruct Q as [(d' & m4 & -> & Rd & N3 & E4 & Ow4 & F4)|(-> & I3 & m4 & m5 & E4 & E5 & Sa & F5)].
    - rewrite E4. cbn [bind]. rewrite Ll.
      destruct (chain_mem fs tels HF pd' b2 d' _ (0 + Z.of_nat (length es)) (fc + 1) m m4 Ow4 Rd S2 ltac:(lia) ltac:(lia) ltac:(unfold fc; destruct fs; lia) ltac:(unfold fc; destruct fs; lia)) as (o & m' & u4 & E6 & A6 & Q). rewrite E6.
      exists o, m', (u1 ++ u2 ++ u3 ++ u4). split; [reflexivity|].
      split; [eapply attempts_trans; [exact A1|]; eapply attempts_trans; [exact A2|]; eapply attempts_trans; [exact A3|]; unfold attempts in *; congruence|].
      destruct o as [[text b']|].
      * destruct Q as (Q1 & ess' & tss & recs & Q2 & -> & Q4 & Q5 & Q6). split; [apply own_added; exact Q1|]. exists (es :: ess'). split; [constructor; assumption|]. split.
        -- pose proof (document_render stamp h x slave (es :: ess') (ts :: tss) (ns ++ recs) Hs Rx) as D. rewrite <- !app_assoc. cbn [map concat] in D. rewrite <- !app_assoc in D. apply D.
           ++ assert (Ef : match es :: ess' with [_] => -1 | _ => 0 end = fc).
              { unfold fc. clear - Q2 Lf. assert (Le : length ess' = length tels) by (rewrite <- (map_length (fun p => ents p) tels); clear - Q2; induction Q2; cbn; congruence).
                destruct ess', fs, tels; cbn in Lf, Le; try discriminate; reflexivity. }
              rewrite Ef. cbn [telegrams_nodes]. exists ns, recs. auto.
           ++ apply renders_app; assumption.
        -- unfold ess. split.
           ++ intros H. injection H as H1 H2. intros I. rewrite !in_app_iff in I. apply U1 in H1. apply Q6 in H2. tauto.
           ++ intros H. f_equal; [apply U1|apply Q6]; intros I; apply H; rewrite !in_app_iff; tauto.
      * destruct Q as [Q1 Q2]. split; [exact Q1|]. rewrite !in_app_iff. tauto.
    - rewrite E4. cbn [bind]. rewrite E5. cbn [bind]. exists None, m5, (u1 ++ u2 ++ u3). split; [reflexivity|].
      split; [eapply attempts_trans; [exact A1|]; eapply attempts_trans; [exact A2|]; unfold attempts in *; congruence|]. split; [exact Sa|]. rewrite !in_app_iff. tauto.
  Qed.

  (** One reply. *)
  Lemma data_xml_shortage pd es l m : p_type pd = DT_VARIABLE -> bytes (pv_header (p_var pd)) -> length (pv_header (p_var pd)) = 12%nat -> chain m (pv_record (p_var pd)) l -> map snd l = map entry_obj es ->
    Forall wf_entry es -> Forall small_entry es -> Z.of_nat (length es) < 10 ^ 9 ->
    exists o m' used, frame_data_xml_mem stamp pd m = Ok (o, m') /\ attempts used m m' /\
    match o with
    | None => same_memory m m' /\ In true used
    | Some (text, b) => added [b] m m' /\ document stamp (pv_header (p_var pd)) [es] text /\ ~ In true used
    end.
  Proof.
    intros Ty Bh Lh C Ms We Sm Hn. unfold frame_data_xml_mem. rewrite Ty.
    change (DT_VARIABLE =? DT_ERROR) with false. change (DT_VARIABLE =? DT_FIXED) with false. change (DT_VARIABLE =? DT_VARIABLE) with true. cbv iota. unfold variable_xml_mem.
    destruct (malloc CBlock m) as [[b|] m1] eqn:Em.
    2: { destruct (malloc_none _ _ _ Em) as [Sa Ab]. exists None, m1, [true]. split; [reflexivity|]. split; [exact Ab|]. split; [exact Sa|left; reflexivity]. }
    destruct (malloc_attempts _ _ _ _ Em) as (u1 & A1 & B1). assert (N1 : ~ In true u1) by (intros I; apply B1 in I; discriminate).
    pose proof (malloc_own _ _ _ Em) as (O1 & O2 & O3).
    destruct (header_renders _ Bh Lh) as (x & slave & Hx & Hs & Rx). destruct (start_ok _ x Hx) as (d & Es & R). rewrite Es. cbn [bind].
    destruct (entries_render stamp Hst es 0 (-1) We Sm) as (ts & ns & Tx & En & Rn); [lia|lia|lia|]. rewrite <- Ms in Tx.
    assert (C1 : chain m1 (pv_record (p_var pd)) l). { eapply chain_keep; [exact C|]. intros a I. apply O3. intros ->. destruct (chain_look _ _ _ _ C I) as (r & nx & L). congruence. }
    destruct (doc_loop_mem l (S (length (m_cells m1))) b d (XML_PI ++ XML_OPEN ++ x) (pv_record (p_var pd)) 0 (-1) m1 ts C1) as (out & E & o & b' & m2 & u2 & -> & A2 & M & X & _ & Q); [apply chain_short in C1; lia|exact O2|exact Tx|exact R|].
    unfold doc_list. rewrite E. cbn [bind]. destruct M as (M1 & M2 & M3 & M4).
    assert (L0 : look m b' = None). { destruct X as [->|X]; [exact O1|]. rewrite <- O3 by (apply look_bound in O2; lia). apply look_over. exact X. }
    assert (K : forall a, a <> b' -> look m2 a = look m a).
    { intros a N. destruct (Nat.eq_dec a b) as [->|Nb]; [destruct M3 as [_ M3]; congruence|]. rewrite M4, O3 by assumption. reflexivity. }
    assert (A3 : attempts (u1 ++ u2) m m2) by (eapply attempts_trans; eassumption).
    destruct Q as [(d' & -> & Rd & N)|(-> & I)].
    - destruct (close_ok d' _ Rd) as (d2 & E2 & T2). rewrite E2. cbn [bind]. rewrite T2. eexists _, m2, (u1 ++ u2). split; [reflexivity|]. split; [exact A3|]. split; [apply own_added; split; auto|].
      split; [|rewrite in_app_iff; tauto].
      pose proof (document_render stamp (pv_header (p_var pd)) x slave [es] [ts] ns Hs Rx) as D. cbn [map concat] in D. rewrite !app_nil_r in D. rewrite <- !app_assoc. apply D; [|exact Rn].
      cbn [telegrams_nodes]. exists ns, []. rewrite app_nil_r. auto.
    - destruct (free_ok b' m2 _ M2) as (m3 & E3 & L1 & L2 & _ & F3). rewrite E3. cbn [bind]. exists None, m3, (u1 ++ u2). split; [reflexivity|]. split; [unfold attempts in *; congruence|].
      split; [|rewrite in_app_iff; tauto]. intros a. destruct (Nat.eq_dec a b') as [->|N]; [congruence|]. rewrite L2, K by exact N. reflexivity.
  Qed.
  Lemma text_shortage t m : exists o m' used, text_mem (Ok t) m = Ok (o, m') /\ attempts used m m' /\
    match o with None => same_memory m m' /\ In true used | Some (text, b) => added [b] m m' /\ text = t /\ ~ In true used end.
  Proof.
    unfold text_mem. destruct (malloc CBlock m) as [[b|] m1] eqn:Em.
    - destruct (malloc_attempts _ _ _ _ Em) as (u1 & A1 & B1). exists (Some (t, b)), m1, u1. split; [reflexivity|]. split; [exact A1|]. split; [apply own_added, malloc_own; exact Em|]. split; [reflexivity|]. intros I; apply B1 in I; discriminate.
    - destruct (malloc_none _ _ _ Em) as [Sa Ab]. exists None, m1, [true]. split; [reflexivity|]. split; [exact Ab|]. split; [exact Sa|left; reflexivity].
  Qed.
End Doc.
