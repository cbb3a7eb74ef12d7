(** Proofs about the memory of normalised records. *)
From Coq Require Import String.
From Coq Require Import List.
From Coq Require Import Permutation.
From Verif Require Import CBase PBase CStr MFrame MCodec SCodec MVar SVar MText SText MXml SXml MUnit MXmlN SUnit SNorm SXmlN PText PText2 PText3 PNorm PropNorm PXml PXml2 PXml3 PXml4 PXmlN MMem SMem PMem PMem2 MMemN SMemN.
Local Open Scope Z_scope.

(** ** New objects beside those of [m0] *)
Lemma added_nil m m' : added [] m m' <-> same_memory m m'.
Proof. split; [intros (_ & _ & H) a; apply H; intros []|]. intros H. split; [constructor|]. split; [intros a []|auto]. Qed.
Lemma added_refl m : added [] m m.
Proof. apply added_nil. intros a. reflexivity. Qed.
Lemma added_perm s s' m m' : Permutation s s' -> added s m m' -> added s' m m'.
Proof.
  intros P (N & A & B). split; [eapply Permutation_NoDup; eassumption|]. split.
  - intros a I. apply A. eapply Permutation_in; [apply Permutation_sym; exact P|exact I].
  - intros a I. apply B. intros J. apply I. eapply Permutation_in; eassumption.
Qed.
Lemma malloc_added c s m0 m p m1 : malloc c m = (p, m1) -> added s m0 m -> added (match p with Some a => a :: s | None => s end) m0 m1 /\ (forall a, p = Some a -> look m a = None).
Proof.
  intros E (N & A & B). destruct (malloc_cases c m) as [(x & E1 & C & F)|(x & E1 & La & Lo & Ll & F)]; rewrite E1 in E; injection E as <- <-.
  - split; [|discriminate]. split; [exact N|]. assert (K : forall a, look x a = look m a) by (intros a; unfold look; rewrite C; reflexivity).
    split; [intros a I; rewrite K; auto|intros a I; rewrite K; auto].
  - set (a0 := length (m_cells m)) in *. assert (L0 : look m a0 = None) by (apply look_over; unfold a0; lia).
    assert (NI : ~ In a0 s) by (intros I; destruct (A a0 I); congruence).
    split; [|intros a H; injection H as <-; exact L0]. split; [constructor; assumption|]. split.
    + intros a [<-|I].
      * split; [rewrite <- B by exact NI; exact L0|congruence].
      * destruct (A a I) as [A1 A2]. split; [exact A1|]. rewrite Lo by (intros ->; contradiction). exact A2.
    + intros a I. cbn in I. rewrite Lo by (intros ->; tauto). apply B. tauto.
Qed.
Lemma free_added a s m0 m : added (a :: s) m0 m -> exists m1, free (Some a) m = Ok m1 /\ added s m0 m1 /\ m_fails m1 = m_fails m.
Proof.
  intros (N & A & B). inversion N as [|? ? N1 N2]; subst. destruct (A a (or_introl eq_refl)) as [A1 A2]. destruct (look m a) as [c|] eqn:E; [|congruence].
  destruct (free_ok a m c E) as (m1 & F & L1 & L2 & _ & L4). exists m1. split; [exact F|]. split; [|exact L4]. split; [exact N2|]. split.
  - intros b I. destruct (A b (or_intror I)) as [B1 B2]. split; [exact B1|]. rewrite L2 by (intros ->; contradiction). exact B2.
  - intros b I. destruct (Nat.eq_dec b a) as [->|Nb]; [congruence|]. rewrite L2 by exact Nb. apply B. intros [J|J]; congruence.
Qed.
Lemma chain_added s m0 m p l : chain m0 p l -> added s m0 m -> chain m p l.
Proof. intros C (_ & A & B). eapply chain_keep; [exact C|]. intros a I. apply B. intros J. destruct (chain_look _ _ _ _ C I) as (r & nx & E). destruct (A a J). congruence. Qed.
Lemma look_added s m0 m a c : look m0 a = Some c -> added s m0 m -> look m a = Some c.
Proof. intros E (_ & A & B). rewrite B; [exact E|]. intros J. destruct (A a J). congruence. Qed.
Lemma added_app_refl s m0 m1 m2 : added s m0 m1 -> same_memory m1 m2 -> added s m0 m2.
Proof. intros (N & A & B) S. split; [exact N|]. split; [intros a I; rewrite S; auto|intros a I; rewrite S; auto]. Qed.

(** ** Owned texts *)
Lemma strdup_added x s m0 m t m1 : strdup x m = (t, m1) -> added s m0 m ->
  added (taddr t ++ s) m0 m1 /\ (forget t = Some x \/ t = None) /\ exists u, attempts u m m1 /\ (In true u <-> t = None).
Proof.
  unfold strdup. destruct (malloc CBlock m) as [p m2] eqn:E. intros H A. destruct (malloc_added _ _ _ _ _ _ E A) as [A2 _]. destruct (malloc_attempts _ _ _ _ E) as (u & U1 & U2).
  destruct p as [a|]; injection H as <- <-.
  - split; [exact A2|]. split; [left; reflexivity|]. exists u. split; [exact U1|]. rewrite U2. split; discriminate.
  - split; [exact A2|]. split; [right; reflexivity|]. exists u. split; [exact U1|]. rewrite U2. split; reflexivity.
Qed.
Lemma free_text_added t s m0 m : added (taddr t ++ s) m0 m -> exists m1, free_text t m = Ok m1 /\ added s m0 m1 /\ m_fails m1 = m_fails m.
Proof.
  destruct t as [[a x]|]; intros A; [apply free_added; exact A|]. exists m. split; [reflexivity|]. split; [exact A|reflexivity].
Qed.
Lemma record_free_added p n s m0 m : added (p :: texts n ++ s) m0 m -> exists m1, mbus_record_free p n m = Ok m1 /\ added s m0 m1 /\ m_fails m1 = m_fails m.
Proof.
  intros A. unfold mbus_record_free. unfold texts in A.
  assert (P : Permutation (p :: (vaddr (q_value n) ++ taddr (q_unit n) ++ taddr (q_function n) ++ taddr (q_quantity n)) ++ s)
                          (vaddr (q_value n) ++ taddr (q_unit n) ++ taddr (q_function n) ++ taddr (q_quantity n) ++ p :: s)).
  { rewrite <- !app_assoc. etransitivity; [|apply Permutation_app_head, Permutation_app_head, Permutation_app_head, Permutation_middle].
    etransitivity; [|apply Permutation_app_head, Permutation_app_head, Permutation_middle]. etransitivity; [|apply Permutation_app_head, Permutation_middle]. apply Permutation_middle. }
  apply (added_perm _ _ _ _ P) in A. clear P.
  assert (H1 : exists m1, (match q_value n with PVStr t _ => free_text t m | PVNum _ => Ok m end) = Ok m1 /\ added (taddr (q_unit n) ++ taddr (q_function n) ++ taddr (q_quantity n) ++ p :: s) m0 m1 /\ m_fails m1 = m_fails m).
  { destruct (q_value n) as [x|t z]; [exists m; auto|apply free_text_added; exact A]. }
  destruct H1 as (m1 & E1 & A1 & F1). rewrite E1. cbn [bind]. destruct (free_text_added _ _ _ _ A1) as (m2 & E2 & A2 & F2). rewrite E2. cbn [bind].
  destruct (free_text_added _ _ _ _ A2) as (m3 & E3 & A3 & F3). rewrite E3. cbn [bind]. destruct (free_text_added _ _ _ _ A3) as (m4 & E4 & A4 & F4). rewrite E4. cbn [bind].
  destruct (free_added _ _ _ _ A4) as (m5 & E5 & A5 & F5). exists m5. split; [exact E5|]. split; [exact A5|congruence].
Qed.

(** ** Normalising a record *)
Definition outcome (s : list nat) (m0 m : mem) (o : option nrec) (lost : bool) (out : option (nat * prec) * mem) : Prop :=
  exists q m' used leak, out = (q, m') /\ attempts used m m' /\ (length leak <= if lost then 1 else 0)%nat /\
  match q with
  | None => added (leak ++ s) m0 m' /\ (In true used \/ o = None /\ length leak = if lost then 1%nat else 0%nat)
  | Some (p, n) => leak = [] /\ added (p :: texts n ++ s) m0 m' /\ exists n0, o = Some n0 /\ thin (seen n) n0 /\ (seen n = n0 <-> ~ In true used)
  end.
Lemma unit_mem r value m s m0 o : mbus_vib_unit_normalize r value = Ok o -> added s m0 m ->
  exists ret u y q m' used, vib_unit_mem r value m = Ok (ret, u, y, q, m') /\ attempts used m m' /\ added (taddr q ++ taddr u ++ s) m0 m' /\
  match o with
  | None => ret = -1
  | Some (u0, y0, q0) => ret = 0 /\ y = y0 /\ (forget u = Some u0 \/ u = None) /\ (forget q = Some q0 \/ q = None) /\ (In true used <-> u = None \/ q = None)
  end.
Proof.
  intros H A. unfold mbus_vib_unit_normalize, vib_unit_mem in *. destruct (rd (r_vife r) 0) as [v0|]; [|discriminate]. cbn [bind] in *.
  assert (D : forall x y, exists u q m' used, (let (pu, m1) := strdup x m in let (pq, m2) := strdup y m1 in (pu, pq, m2)) = (u, q, m') /\ attempts used m m' /\ added (taddr q ++ taddr u ++ s) m0 m' /\
    (forget u = Some x \/ u = None) /\ (forget q = Some y \/ q = None) /\ (In true used <-> u = None \/ q = None)).
  { intros x y. destruct (strdup x m) as [u m1] eqn:E1. destruct (strdup y m1) as [q m2] eqn:E2. destruct (strdup_added _ _ _ _ _ _ E1 A) as (A1 & B1 & u1 & U1 & V1). destruct (strdup_added _ _ _ _ _ _ E2 A1) as (A2 & B2 & u2 & U2 & V2).
    exists u, q, m2, (u1 ++ u2). split; [reflexivity|]. split; [eapply attempts_trans; eassumption|]. split; [exact A2|]. split; [exact B1|]. split; [exact B2|]. rewrite in_app_iff, V1, V2. tauto. }
  assert (Pl : forall code, exists ret u0 v0' q0 u q m' used, mbus_vif_unit_normalize code value = (ret, u0, v0', q0) /\ vif_unit_mem code value m = (ret, u, v0', q, m') /\ attempts used m m' /\ added (taddr q ++ taddr u ++ s) m0 m' /\
    (forget u = Some u0 \/ u = None) /\ (forget q = Some q0 \/ q = None) /\ (In true used <-> u = None \/ q = None)).
  { intros code. unfold vif_unit_mem. destruct (mbus_vif_unit_normalize code value) as [[[ret u0] v0'] q0]. destruct (D u0 q0) as (u & q & m' & used & E & R).
    exists ret, u0, v0', q0, u, q, m', used. split; [reflexivity|]. split; [|exact R]. destruct (strdup u0 m) as [pu m1]. destruct (strdup q0 m1) as [pq m2]. injection E as <- <- <-. reflexivity. }
  assert (Fin : forall first0 first, match first0 with
      | None => exists u q m' used v, first = (-1, u, v, q, m') /\ attempts used m m' /\ added (taddr q ++ taddr u ++ s) m0 m'
      | Some (u0, y0, q0) => exists u q m' used, first = (0, u, y0, q, m') /\ attempts used m m' /\ added (taddr q ++ taddr u ++ s) m0 m' /\ (forget u = Some u0 \/ u = None) /\ (forget q = Some q0 \/ q = None) /\ (In true used <-> u = None \/ q = None)
      end ->
    (match first0 with None => Ok None | Some (u, v, q) => if negb (Z.land (r_vif r) 0x80 =? 0) && negb (r_vif r =? 0xFD) && negb (r_vif r =? 0xFB) then Ok (Some (u, vife_correction v0 v, q)) else Ok (Some (u, v, q)) end) = Ok o ->
    exists ret u y q m' used, (match first with (ret, pu, v, pq, m) => if negb (ret =? 0) then Ok (-1, pu, v, pq, m) else if negb (Z.land (r_vif r) 0x80 =? 0) && negb (r_vif r =? 0xFD) && negb (r_vif r =? 0xFB)
      then Ok (0, pu, vife_correction v0 v, pq, m) else Ok (0, pu, v, pq, m) end) = Ok (ret, u, y, q, m') /\ attempts used m m' /\ added (taddr q ++ taddr u ++ s) m0 m' /\
    match o with None => ret = -1 | Some (u0, y0, q0) => ret = 0 /\ y = y0 /\ (forget u = Some u0 \/ u = None) /\ (forget q = Some q0 \/ q = None) /\ (In true used <-> u = None \/ q = None) end).
  { intros first0 first Hf Ho. destruct first0 as [[[u0 y0] q0]|].
    - destruct Hf as (u & q & m' & used & -> & F1 & F2 & F3 & F4 & F5). change (negb (0 =? 0)) with false. cbv iota.
      destruct (negb (Z.land (r_vif r) 0x80 =? 0) && negb (r_vif r =? 0xFD) && negb (r_vif r =? 0xFB)); injection Ho as <-; eexists _, _, _, _, _, used; (split; [reflexivity|]); auto 10.
    - destruct Hf as (u & q & m' & used & v & -> & F1 & F2). change (negb (-1 =? 0)) with true. cbv iota. injection Ho as <-. eexists _, _, _, _, _, used. split; [reflexivity|]. auto. }
  refine (Fin _ _ _ H). clear Fin H.
  assert (Pl2 : forall code, match (match mbus_vif_unit_normalize code value with (ret, u, v, q) => if ret =? 0 then Some (u, v, q) else None end) with
      | None => exists u q m' used v, vif_unit_mem code value m = (-1, u, v, q, m') /\ attempts used m m' /\ added (taddr q ++ taddr u ++ s) m0 m'
      | Some (u0, y0, q0) => exists u q m' used, vif_unit_mem code value m = (0, u, y0, q, m') /\ attempts used m m' /\ added (taddr q ++ taddr u ++ s) m0 m' /\ (forget u = Some u0 \/ u = None) /\ (forget q = Some q0 \/ q = None) /\ (In true used <-> u = None \/ q = None)
      end).
  { intros code. destruct (Pl code) as (ret & u0 & v1 & q0 & u & q & m' & used & E1 & E2 & R1 & R2 & R3). rewrite E1. destruct (Z.eqb_spec ret 0) as [->|N].
    - exists u, q, m', used. auto.
    - assert (ret = -1). { unfold mbus_vif_unit_normalize in E1. destruct (find_row vif_table (Z.land code 0xF7F)); injection E1 as <- _ _ _; congruence. } subst ret. exists u, q, m', used, v1. auto. }
  destruct (r_vif r =? 0xFD); [destruct (r_nvife r =? 0)%nat; [exists None, None, m, [], (Num 0); split; [reflexivity|split; [reflexivity|exact A]]|apply Pl2]|].
  destruct (r_vif r =? 0xFB); [destruct (r_nvife r =? 0)%nat; [exists None, None, m, [], (Num 0); split; [reflexivity|split; [reflexivity|exact A]]|apply Pl2]|].
  destruct ((r_vif r =? 0x7C) || (r_vif r =? 0xFC)); [|apply Pl2].
  destruct (D (cstr "-") (c_text (r_custom r))) as (u & q & m' & used & E & R). exists u, q, m', used. split; [|exact R].
  destruct (strdup (cstr "-") m) as [pu m1]. destruct (strdup (c_text (r_custom r)) m1) as [pq m2]. injection E as <- <- <-. reflexivity.
Qed.

Lemma value_mem r m s m0 d : mbus_variable_value_decode r = Ok d -> added s m0 m ->
  exists ret x t size m' used, value_decode_mem r m = Ok (ret, x, t, size, m') /\ attempts used m m' /\ added (taddr t ++ s) m0 m' /\
  ((In true used /\ ret = -1 /\ t = None) \/ (~ In true used /\ ret = e_ret d /\ x = e_real d /\ size = e_size d /\ forget t = e_str d)).
Proof.
  intros H A. unfold value_decode_mem. rewrite H. cbn [bind]. destruct (e_str d) as [y|] eqn:Es.
  - destruct (strdup y m) as [t m1] eqn:E. destruct (strdup_added _ _ _ _ _ _ E A) as (A1 & B & u & U & V). destruct t as [a|].
    + exists (e_ret d), (e_real d), (Some a), (e_size d), m1, u. split; [reflexivity|]. split; [exact U|]. split; [exact A1|]. right. destruct B as [B|B]; [|discriminate].
      split; [rewrite V; discriminate|]. auto.
    + exists (-1), (e_real d), None, 0, m1, u. split; [reflexivity|]. split; [exact U|]. split; [exact A1|]. left. split; [apply V; reflexivity|]. auto.
  - exists (e_ret d), (e_real d), None, (e_size d), m, []. split; [reflexivity|]. split; [reflexivity|]. split; [exact A|]. right. split; [intros []|]. auto.
Qed.
(** Freeing a record all of whose texts are known to be owned by it. *)
Lemma free_perm p n l s m0 m : added l m0 m -> Permutation l (p :: texts n ++ s) -> exists m1, mbus_record_free p n m = Ok m1 /\ added s m0 m1 /\ attempts [] m m1.
Proof.
  intros A P. destruct (record_free_added p n s m0 m (added_perm _ _ _ _ P A)) as (m1 & E & A1 & F). exists m1. split; [exact E|]. split; [exact A1|]. unfold attempts. cbn. congruence.
Qed.
Ltac perm := repeat rewrite app_nil_r; repeat rewrite <- app_assoc; cbn [app];
  apply (Permutation_count_occ Nat.eq_dec); intros zz; repeat (rewrite count_occ_app || (cbn [count_occ]; match goal with |- context [Nat.eq_dec ?x ?y] => destruct (Nat.eq_dec x y) end)); try lia.
Lemma taddr_len t y : forget t = y -> length (taddr t) = match y with Some _ => 1%nat | None => 0%nat end.
Proof. intros <-. destruct t as [[a x]|]; reflexivity. Qed.
Lemma variable_record_mem r m s m0 o lost : mbus_parse_variable_record r = Ok (o, lost) -> added s m0 m ->
  exists out, parse_variable_mem r m = Ok out /\ outcome s m0 m o lost out.
Proof.
  intros H A. unfold mbus_parse_variable_record, parse_variable_mem, mbus_record_new in *.
  destruct (malloc CBlock m) as [[p|] m1] eqn:E; destruct (malloc_added _ _ _ _ _ _ E A) as [A1 _]; destruct (malloc_attempts _ _ _ _ E) as (u1 & U1 & V1).
  2:{ eexists; split; [reflexivity|]. exists None, m1, u1, []. split; [reflexivity|]. split; [exact U1|]. split; [destruct lost; cbn; lia|]. split; [exact A1|]. left. apply V1. reflexivity. }
  assert (W1 : ~ In true u1) by (rewrite V1; discriminate). clear V1.
  destruct (mbus_data_record_storage_number r) as [storage|]; [|discriminate]. cbn [bind] in *.
  destruct (mbus_data_record_tariff r) as [tariff|]; [|discriminate]. cbn [bind] in *.
  destruct (mbus_data_record_device r) as [device|]; [|discriminate]. cbn [bind] in *.
  destruct (mbus_variable_value_decode r) as [d|] eqn:Ed; [|discriminate]. cbn [bind] in *.
  set (func := if (r_dif r =? 0x0F) || (r_dif r =? 0x1F) then _ else mbus_data_record_function r) in *.
  destruct (strdup func m1) as [f m2] eqn:E2. destruct (strdup_added _ _ _ _ _ _ E2 A1) as (A2 & B2 & u2 & U2 & V2). pose proof (attempts_trans _ _ _ _ _ U1 U2) as U12.
  destruct f as [f|].
  2:{ destruct (free_perm p (mkPR (PVNum (Num 0)) None None None device tariff storage) _ s m0 m2 A2) as (m3 & F & A3 & U3); [reflexivity|]. rewrite F. cbn [bind].
      eexists; split; [reflexivity|]. exists None, m3, ((u1 ++ u2) ++ []), []. split; [reflexivity|]. split; [eapply attempts_trans; eassumption|]. split; [destruct lost; cbn; lia|]. split; [exact A3|].
      left. rewrite !in_app_iff. left. right. apply V2. reflexivity. }
  destruct B2 as [B2|B2]; [|discriminate]. assert (W2 : ~ In true u2) by (rewrite V2; discriminate). clear V2.
  destruct (value_mem r m2 _ m0 d Ed A2) as (ret & x & t & size & m3 & u3 & Ev & U3 & A3 & K). rewrite Ev. cbn [bind]. pose proof (attempts_trans _ _ _ _ _ U12 U3) as U123.
  destruct (negb (ret =? 0)) eqn:Er.
  - (* the value cannot be decoded, or no memory for its text *)
    destruct (free_perm p (mkPR (PVNum (Num 0)) None (Some f) None device tariff storage) _ (taddr t ++ s) m0 m3 A3) as (m4 & F & A4 & U4).
    { cbn [texts q_value q_unit q_function q_quantity vaddr taddr app]. unfold texts. cbn. perm. }
    rewrite F. cbn [bind]. eexists; split; [reflexivity|]. exists None, m4, (((u1 ++ u2) ++ u3) ++ []), (taddr t). split; [reflexivity|]. split; [eapply attempts_trans; eassumption|].
    destruct K as [(K1 & K2 & K3)|(K1 & K2 & K3 & K4 & K5)].
    + subst t. cbn [taddr app length]. split; [destruct lost; lia|]. split; [exact A4|]. left. rewrite !in_app_iff. auto.
    + assert (N : negb (e_ret d =? 0) = true) by congruence. rewrite N in H. assert (Ho : o = None /\ lost = match e_str d with Some _ => true | None => false end) by (destruct ((r_dif r =? 0x0F) || (r_dif r =? 0x1F)); split; congruence).
      destruct Ho as [-> ->]. assert (L := taddr_len t _ K5). destruct (e_str d); (split; [lia|]); (split; [exact A4|]); right; split; [reflexivity|exact L|reflexivity|exact L].
  - destruct K as [(K1 & K2 & K3)|(K1 & K2 & K3 & K4 & K5)]; [subst ret; discriminate|]. assert (N : negb (e_ret d =? 0) = false) by congruence. rewrite N in H. subst func.
    destruct ((r_dif r =? 0x0F) || (r_dif r =? 0x1F)).
    + apply ok_inj2 in H as [<- <-]. eexists; split; [reflexivity|]. eexists _, m3, _, []. split; [reflexivity|]. split; [exact U123|]. split; [cbn; lia|]. split; [reflexivity|]. split.
      * eapply added_perm; [|exact A3]. unfold texts. cbn. destruct t as [[a y]|]; cbn; perm.
      * eexists. split; [reflexivity|]. cbn [forget option_map] in B2.
        assert (Q : seen (mkPR (match t with Some _ => PVStr t size | None => PVNum (Num 0) end) None (Some f) None device tariff storage) =
          mkN (match e_str d with Some s0 => VStr s0 (e_size d) | None => VNum (Num 0) end) None (if r_dif r =? 0x1F then cstr "More records follow" else cstr "Manufacturer specific") None device tariff storage).
        { unfold seen. cbn [q_value q_unit q_function q_quantity q_device q_tariff q_storage forget option_map]. rewrite <- K5. injection B2 as ->. destruct t as [[a y]|]; cbn [forget option_map snd]; [rewrite K4|]; reflexivity. }
        rewrite Q. split; [repeat split; auto|]. split; [intros _; rewrite !in_app_iff; tauto|reflexivity].
    + destruct (mbus_vib_unit_normalize r (e_real d)) as [o1|] eqn:Eu; [|discriminate]. cbn [bind] in H.
      destruct (unit_mem r _ m3 _ m0 o1 Eu A3) as (ret' & u & y & q & m4 & u4 & E4 & U4 & A4 & K'). subst x. rewrite E4. cbn [bind]. pose proof (attempts_trans _ _ _ _ _ U123 U4) as U1234.
      destruct o1 as [[[u0 y0] q0]|].
      * destruct K' as (-> & -> & Ku & Kq & Kt). change (negb (0 =? 0)) with false. cbv iota. apply ok_inj2 in H as [<- <-]. eexists; split; [reflexivity|]. eexists _, m4, _, []. split; [reflexivity|]. split; [exact U1234|].
        split; [cbn; lia|]. split; [reflexivity|]. split.
        { eapply added_perm; [|exact A4]. unfold texts. cbn [q_value q_unit q_function q_quantity]. destruct t as [[a z]|]; cbn [vaddr taddr]; perm. }
        eexists. split; [reflexivity|].
        assert (Hv : n_value (seen (mkPR (match t with Some _ => PVStr t size | None => PVNum y0 end) u (Some f) q device tariff storage)) = match e_str d with Some s0 => VStr s0 (e_size d) | None => VNum y0 end).
        { unfold seen. cbn [q_value n_value]. rewrite <- K5. destruct t as [[a z]|]; cbn [forget option_map snd]; [rewrite K4|]; reflexivity. }
        assert (Hf : n_function (seen (mkPR (match t with Some _ => PVStr t size | None => PVNum y0 end) u (Some f) q device tariff storage)) = mbus_data_record_function r).
        { unfold seen. cbn [q_function n_function]. rewrite B2. reflexivity. }
        split.
        { unfold thin. rewrite Hv, Hf. cbn [seen n_unit n_quantity q_unit q_quantity n_device n_tariff n_storage q_device q_tariff q_storage n_value n_function].
          repeat split; auto; [destruct Ku as [Ku| ->]; auto|destruct Kq as [Kq| ->]; auto]. }
        rewrite !in_app_iff, Kt. split.
        { intros Q. assert (Q1 := f_equal n_unit Q). assert (Q2 := f_equal n_quantity Q). cbn [seen n_unit n_quantity q_unit q_quantity] in Q1, Q2.
          intros [[[I|I]|I]|[I|I]]; try tauto; subst; discriminate. }
        intros I. destruct Ku as [Ku|Ku]; [|tauto]. destruct Kq as [Kq|Kq]; [|tauto]. clear Hf. unfold seen in *. cbn [q_value q_unit q_function q_quantity q_device q_tariff q_storage n_value] in *.
        rewrite Hv, Ku, Kq, B2. reflexivity.
      * subst ret'. change (negb (-1 =? 0)) with true. cbv iota. apply ok_inj2 in H as [<- <-].
        destruct (free_perm p (mkPR (PVNum (Num 0)) u (Some f) q device tariff storage) _ (taddr t ++ s) m0 m4 A4) as (m5 & F & A5 & U5).
        { unfold texts. cbn [q_value q_unit q_function q_quantity vaddr]. perm. }
        rewrite F. cbn [bind]. eexists; split; [reflexivity|]. assert (L := taddr_len t _ K5). exists None, m5, (((u1 ++ u2) ++ u3) ++ u4 ++ []), (taddr t). split; [reflexivity|].
        split; [rewrite app_nil_r; unfold attempts in *; rewrite U1234, U5; reflexivity|]. destruct (e_str d); (split; [lia|]); (split; [exact A5|]); right; split; [reflexivity|exact L|reflexivity|exact L].
Qed.
Lemma fixed_record_mem status mu data m s m0 o : mbus_parse_fixed_record status mu data = Ok o -> added s m0 m ->
  exists out, parse_fixed_mem status mu data m = Ok out /\ outcome s m0 m o false out.
Proof.
  intros H A. unfold mbus_parse_fixed_record, parse_fixed_mem, mbus_record_new in *.
  destruct (malloc CBlock m) as [[p|] m1] eqn:E; destruct (malloc_added _ _ _ _ _ _ E A) as [A1 _]; destruct (malloc_attempts _ _ _ _ E) as (u1 & U1 & V1).
  2:{ eexists; split; [reflexivity|]. exists None, m1, u1, []. split; [reflexivity|]. split; [exact U1|]. split; [cbn; lia|]. split; [exact A1|]. left. apply V1. reflexivity. }
  assert (W1 : ~ In true u1) by (rewrite V1; discriminate). clear V1.
  destruct (if Z.land status 0x80 =? 0x00 then mbus_data_bcd_decode data 4 else _) as [v|]; [|discriminate]. cbn [bind] in *.
  destruct (strdup (mbus_data_fixed_function status) m1) as [f m2] eqn:E2. destruct (strdup_added _ _ _ _ _ _ E2 A1) as (A2 & B2 & u2 & U2 & V2). pose proof (attempts_trans _ _ _ _ _ U1 U2) as U12.
  destruct f as [f|].
  2:{ destruct (free_perm p pr_new _ s m0 m2 A2) as (m3 & F & A3 & U3); [reflexivity|]. rewrite F. cbn [bind].
      eexists; split; [reflexivity|]. exists None, m3, ((u1 ++ u2) ++ []), []. split; [reflexivity|]. split; [eapply attempts_trans; eassumption|]. split; [cbn; lia|]. split; [exact A3|].
      left. rewrite !in_app_iff. left. right. apply V2. reflexivity. }
  destruct B2 as [B2|B2]; [|discriminate]. assert (W2 : ~ In true u2) by (rewrite V2; discriminate). clear V2.
  destruct (mbus_fixed_normalize mu v) as [[[ret u0] x] q0].
  destruct (strdup u0 m2) as [u m3] eqn:E3. destruct (strdup_added _ _ _ _ _ _ E3 A2) as (A3 & B3 & u3 & U3 & V3). pose proof (attempts_trans _ _ _ _ _ U12 U3) as U123.
  destruct (strdup q0 m3) as [q m4] eqn:E4. destruct (strdup_added _ _ _ _ _ _ E4 A3) as (A4 & B4 & u4 & U4 & V4). pose proof (attempts_trans _ _ _ _ _ U123 U4) as U1234.
  destruct (negb (ret =? 0)).
  - apply ok_inj in H as <-. match goal with |- context [mbus_record_free p ?n m4] => destruct (free_perm p n _ s m0 m4 A4) as (m5 & F & A5 & U5) end.
    { unfold texts. cbn [q_value q_unit q_function q_quantity vaddr]. perm. }
    rewrite F. cbn [bind]. eexists; split; [reflexivity|]. eexists None, m5, _, []. split; [reflexivity|]. split; [eapply attempts_trans; eassumption|]. split; [cbn; lia|]. split; [exact A5|]. right. auto.
  - apply ok_inj in H as <-. eexists; split; [reflexivity|]. eexists _, m4, _, []. split; [reflexivity|]. split; [exact U1234|]. split; [cbn; lia|]. split; [reflexivity|]. split.
    { eapply added_perm; [|exact A4]. unfold texts. cbn [q_value q_unit q_function q_quantity vaddr]. perm. }
    eexists. split; [reflexivity|]. unfold seen, thin. cbn [q_value q_unit q_function q_quantity q_device q_tariff q_storage n_value n_unit n_function n_quantity n_device n_tariff n_storage].
    rewrite B2. split.
    { repeat split; auto; [destruct B3 as [B3| ->]; auto|destruct B4 as [B4| ->]; auto]. }
    rewrite !in_app_iff, V3, V4. split.
    { intros Q. injection Q as Q1 Q2. intros [[[I|I]|I]|I]; try tauto; subst; discriminate. }
    intros I. destruct B3 as [B3|B3]; [|tauto]. destruct B4 as [B4|B4]; [|tauto]. rewrite B3, B4. reflexivity.
Qed.

(** ** The document *)
Lemma realloc_added b s m0 m : added (b :: s) m0 m -> exists q m' u, realloc b CBlock m = Ok (q, m') /\ attempts u m m' /\
  match q with None => In true u /\ added (b :: s) m0 m' | Some b' => ~ In true u /\ added (b' :: s) m0 m' end.
Proof.
  intros A. unfold realloc. destruct (malloc CBlock m) as [[p|] m1] eqn:E; destruct (malloc_added _ _ _ _ _ _ E A) as [A1 _]; destruct (malloc_attempts _ _ _ _ E) as (u & U & V).
  - destruct (free_added b (p :: s) m0 m1) as (m2 & F & A2 & F2). { eapply added_perm; [|exact A1]. apply perm_swap. }
    rewrite F. cbn [bind]. exists (Some p), m2, u. split; [reflexivity|]. split; [unfold attempts in *; congruence|]. split; [rewrite V; discriminate|exact A2].
  - exists None, m1, u. split; [reflexivity|]. split; [exact U|]. split; [apply V; reflexivity|exact A1].
Qed.
Lemma thin_good n n0 : thin n n0 -> good_record n0 -> (text_size n0 <= 701)%nat -> good_record n /\ (text_size n <= 701)%nat.
Proof.
  intros (V & F & D & T & S & U & Q). unfold good_record, text_size. rewrite V, F, D, T, S. intros (G1 & G2 & G3 & G4 & G5) L.
  split; [|destruct U as [-> | ->], Q as [-> | ->]; cbn [text_of escape_text flat_map length] in *; lia]. split; [exact G1|]. split; [exact G2|]. split; [destruct U as [-> | ->]; [exact G3|discriminate]|].
  split; [destruct Q as [-> | ->]; [exact G4|discriminate]|exact G5].
Qed.
Lemma thin_refl n : thin n n.
Proof. repeat split; auto. Qed.
Lemma entry_good e : wf_entry e -> small_norm e ->
  exists o lost, mbus_parse_variable_record (entry_obj e) = Ok (o, lost) /\ (lost = true -> reserved_unit e = true) /\ forall n, o = Some n -> good_record n /\ (text_size n <= 701)%nat.
Proof.
  intros W Sm. destruct e as [a|more b]; cbn [entry_obj wf_entry small_norm] in *.
  - destruct Sm as (S1 & S2 & S3). destruct (C60_total a W S1 S2) as (o & lost & E & _ & Lo). exists o, lost. split; [exact E|].
    split. { intros H; destruct (Lo H) as [_ [X|X]]; unfold reserved_unit; rewrite X; reflexivity. }
    intros n ->. split; [exact (parse_good a n lost W S1 S2 E)|exact (S3 n lost E)].
  - destruct W as [Lb Hb]. destruct (C60_block more b Lb Hb) as (n & size & E & V & F & U & Q & S & T & D). exists (Some n), false. split; [exact E|]. split; [discriminate|].
    assert (HP : Forall plain (hex_text (rev b))) by (apply hex_text_plain, Forall_rev; assumption).
    pose proof (hex_text_len (rev b)) as HL. rewrite rev_length in HL. intros n1 H. injection H as <-. split.
    + unfold good_record. rewrite V, F, U, Q, S, T, D. split; [apply plainb_all; destruct more; reflexivity|]. split; [destruct more; vm_compute; lia|].
      split; [discriminate|]. split; [discriminate|]. split; [apply plain_chars; assumption|]. lia.
    + unfold text_size. rewrite V, U, Q. cbn [text_of escape_text flat_map length]. fold (escape_text (hex_text (rev b))). rewrite escape_text_plain by assumption. lia.
Qed.
Lemma norm_loop_mem m0 : forall l es fuel b d t p i m leak, chain m0 p l -> map snd l = map entry_obj es -> (length l < fuel)%nat -> added (b :: leak) m0 m -> roomy d t ->
  Forall wf_entry es -> Forall small_norm es -> 0 <= i -> i + Z.of_nat (length es) < 10 ^ 9 ->
  exists q m' used leak', norm_records_mem fuel b d p i m = Ok (q, m') /\ attempts used m m' /\ (length leak' <= length leak + length (filter reserved_unit es))%nat /\
  match q with
  | None => In true used /\ added leak' m0 m'
  | Some (b', d') => added (b' :: leak') m0 m' /\ exists txt nds, roomy d' (t ++ txt) /\ renders txt nds /\ norm_entries thin_entry es i nds /\ (~ In true used -> norm_entries norm_entry es i nds)
  end.
Proof.
  induction l as [|[a r] l IH]; intros es fuel b d t p i m leak C Ms Lf A R We Sm Hi Hn.
  - inversion C; subst. destruct es; [|discriminate]. destruct fuel as [|fuel]; [inversion Lf|]. cbn [norm_records_mem].
    exists (Some (b, d)), m, [], leak. split; [reflexivity|]. split; [reflexivity|]. split; [cbn; lia|]. split; [exact A|]. exists [], []. rewrite app_nil_r. split; [exact R|]. split; [apply renders_nil|]. split; [reflexivity|]. intros _; reflexivity.
  - inversion C as [|a' r' next l' Lk C']; subst. destruct es as [|e es]; [discriminate|]. cbn [map snd] in Ms. apply (f_equal (fun x => (hd r x, tl x))) in Ms. cbn [hd tl] in Ms. injection Ms as Mr Ms.
    destruct fuel as [|fuel]; [inversion Lf|]. cbn [length] in Lf, Hn. inversion_clear We as [|? ? W1 W2]. inversion_clear Sm as [|? ? S1 S2]. cbn [norm_records_mem]. rewrite (look_added _ _ _ _ _ Lk A).
    destruct (entry_good e W1 S1) as (o & lost & E & Lo & Gd). subst r.
    destruct (variable_record_mem _ m _ m0 _ _ E A) as (out & E1 & q & m1 & u1 & lk & -> & U1 & Ll & K). rewrite E1. cbn [bind]. clear E1.
    (* the record, its addresses and what is shown *)
    assert (K' : exists addrs, added (b :: addrs ++ lk ++ leak) m0 m1 /\ (forall s m2, added (b :: addrs ++ s) m0 m2 -> exists m3, (match q with Some (c, n) => mbus_record_free c n m2 | None => Ok m2 end) = Ok m3 /\ added (b :: s) m0 m3 /\ attempts [] m2 m3)
      /\ (forall b' s m2, added (b' :: addrs ++ s) m0 m2 -> exists m3, (match q with Some (c, n) => mbus_record_free c n m2 | None => Ok m2 end) = Ok m3 /\ added (b' :: s) m0 m3 /\ attempts [] m2 m3)).
    { destruct q as [[c n]|].
      - destruct K as (-> & K1 & _). exists (c :: texts n). split; [eapply added_perm; [|exact K1]; cbn [app]; perm|].
        assert (X : forall b' s m2, added (b' :: (c :: texts n) ++ s) m0 m2 -> exists m3, mbus_record_free c n m2 = Ok m3 /\ added (b' :: s) m0 m3 /\ attempts [] m2 m3) by (intros b' s m2 A2; eapply free_perm; [exact A2|cbn [app]; perm]).
        split; [intros s m2|]; apply X.
      - destruct K as (K1 & _). exists []. split; [eapply added_perm; [|exact K1]; cbn [app]; perm|].
        split; [intros s m2|intros b' s m2]; intros A2; exists m2; (split; [reflexivity|]); (split; [exact A2|reflexivity]). }
    destruct K' as (addrs & A1 & F1 & F2).
    assert (Step : exists q' m2 u, (if (b_len d <=? length (b_buf d))%nat && (length (b_buf d) - b_len d <? 1024)%nat then realloc b CBlock m1 else Ok (Some b, m1)) = Ok (q', m2) /\ attempts u m1 m2 /\
      match q' with None => In true u /\ added (b :: addrs ++ lk ++ leak) m0 m2 | Some b' => ~ In true u /\ added (b' :: addrs ++ lk ++ leak) m0 m2 end).
    { destruct ((b_len d <=? length (b_buf d))%nat && (length (b_buf d) - b_len d <? 1024)%nat); [apply realloc_added; exact A1|]. exists (Some b), m1, []. split; [reflexivity|]. split; [reflexivity|]. split; [intros []|exact A1]. }
    destruct Step as (q' & m2 & u2 & E2 & U2 & K2). rewrite E2. cbn [bind]. clear E2. pose proof (attempts_trans _ _ _ _ _ U1 U2) as U12.
    assert (LL : (length lk <= (if reserved_unit e then 1 else 0))%nat) by (destruct lost; [rewrite (Lo eq_refl); exact Ll|lia]).
    assert (LC : (length lk + length leak + length (filter reserved_unit es) <= length leak + length (filter reserved_unit (e :: es)))%nat) by (cbn [filter]; destruct (reserved_unit e); cbn [length]; lia).
    destruct q' as [b1|].
    2:{ destruct K2 as [I A2]. destruct (F1 _ _ A2) as (m3 & E3 & A3 & U3). rewrite E3. cbn [bind]. destruct (free_added _ _ _ _ A3) as (m4 & E4 & A4 & U4). rewrite E4. cbn [bind].
        exists None, m4, (u1 ++ u2), (lk ++ leak). split; [reflexivity|]. split; [unfold attempts in *; cbn [app] in U3; congruence|]. split; [rewrite app_length; lia|]. split; [rewrite in_app_iff; auto|exact A4]. }
    destruct K2 as [I A2].
    assert (Tx : exists x ns nd, norm_text i (option_map (fun o => seen (snd o)) q) x ns nd /\ thin_entry e ns /\ (~ In true u1 -> norm_entry e ns)).
    { destruct q as [[c n]|]; cbn [option_map snd].
      - destruct K as (_ & _ & n0 & -> & Tn & Te). destruct (Gd n0 eq_refl) as [G1 G2]. destruct (thin_good _ _ Tn G1 G2) as [G3 G4]. destruct (norm_renders (seen n) i G3 G4 ltac:(lia)) as (x & ns & nd & N). exists x, ns, nd. split; [exact N|].
        destruct N as (_ & N & _). split; [right; exists n0, (seen n), lost; auto|]. intros J. apply Te in J. exists (Some n0), lost. split; [exact E|]. rewrite <- J. exact N.
      - destruct (refused_renders i ltac:(lia)) as (x & nd & N). exists x, [], nd. split; [exact N|]. split; [left; reflexivity|]. intros J. destruct K as (_ & [K|[-> _]]); [contradiction|]. exists None, lost. split; [exact E|reflexivity]. }
    destruct Tx as (x & ns & nd & ((ls & El & Ex) & _ & N2 & N3 & N4 & N5) & Te & Tf). rewrite El. cbn [bind].
    destruct R as (R1 & R2 & R3 & R4). destruct (grow_ok d t R1 R2) as (G1 & G2 & G3).
    destruct (lines_ok ls (doc_grow d) t G1) as (d1 & E1 & H1 & L1). { rewrite Ex. lia. } rewrite E1. cbn [bind]. rewrite Ex in H1.
    destruct (F2 _ _ _ A2) as (m3 & E3 & A3 & U3). rewrite E3. cbn [bind]. pose proof (attempts_trans _ _ _ _ _ U12 U3) as U123.
    destruct (IH es fuel b1 d1 (t ++ x) next (i + 1) m3 (lk ++ leak) C' Ms ltac:(lia) A3) as (qq & m4 & u4 & leak' & E4 & U4 & L4 & K4); try assumption; try lia.
    { split; [assumption|]. rewrite nonul_app. rewrite app_length. repeat split; try assumption; lia. }
    exists qq, m4, (((u1 ++ u2) ++ []) ++ u4), leak'. split; [exact E4|]. split; [eapply attempts_trans; eassumption|]. split; [rewrite app_length in L4; lia|].
    destruct qq as [[b' d']|].
    + destruct K4 as (A4 & txt & nds & R5 & RN & NE & NF). split; [exact A4|]. exists (x ++ txt), (nd :: nds). split; [rewrite app_assoc; exact R5|]. split; [apply (renders_app x [nd] txt nds); assumption|].
      split; [cbn [norm_entries]; exists nd, ns, nds; auto|]. rewrite !in_app_iff. intros J. cbn [norm_entries]. exists nd, ns, nds. split; [reflexivity|]. split; [apply Tf; tauto|]. split; [exact N2|apply NF; tauto].
    + destruct K4 as [K4 A4]. split; [rewrite !in_app_iff; auto|exact A4].
Qed.
Lemma normalised_shortage pd es l m : p_type pd = DT_VARIABLE -> bytes (pv_header (p_var pd)) -> length (pv_header (p_var pd)) = 12%nat -> chain m (pv_record (p_var pd)) l -> map snd l = map entry_obj es ->
  Forall wf_entry es -> Forall small_norm es -> Z.of_nat (length es) < 10 ^ 9 ->
  exists o m' used leak, frame_data_xmln_mem pd m = Ok (o, m') /\ attempts used m m' /\ (length leak <= length (filter reserved_unit es))%nat /\
  match o with
  | None => added leak m m' /\ In true used
  | Some (text, b) => added (b :: leak) m m' /\ norm_document thin_entry (pv_header (p_var pd)) es text /\ (~ In true used -> norm_document norm_entry (pv_header (p_var pd)) es text)
  end.
Proof.
  intros Ty Bh Lh C Ms We Sm Hn. unfold frame_data_xmln_mem, variable_xmln_mem. rewrite Ty. change (DT_VARIABLE =? DT_FIXED) with false. change (DT_VARIABLE =? DT_VARIABLE) with true. cbv iota.
  destruct (malloc CBlock m) as [[b|] m1] eqn:E; destruct (malloc_added _ _ _ _ _ _ E (added_refl m)) as [A1 _]; destruct (malloc_attempts _ _ _ _ E) as (u1 & U1 & V1).
  2:{ exists None, m1, u1, []. split; [reflexivity|]. split; [exact U1|]. split; [cbn; lia|]. split; [exact A1|]. apply V1. reflexivity. }
  destruct (header_renders _ Bh Lh) as (x & slave & Hx & Hs & Rx). destruct (start_ok _ x Hx) as (d & E0 & R0). rewrite E0. cbn [bind].
  destruct (norm_loop_mem m l es (S (length (m_cells m1))) b d (XML_PI ++ XML_OPEN ++ x) (pv_record (p_var pd)) 0 m1 [] C Ms) as (q & m2 & u2 & leak & E2 & U2 & L2 & K); try assumption; try lia.
  { apply (chain_added _ _ _ _ _ C) in A1. apply chain_short in A1. lia. }
  rewrite E2. cbn [bind]. pose proof (attempts_trans _ _ _ _ _ U1 U2) as U12. cbn [length] in L2. destruct q as [[b' d']|].
  - destruct K as (A2 & txt & nds & R1 & RN & NE & NF). destruct (close_ok d' _ R1) as (d2 & E3 & T2). rewrite E3. cbn [bind]. rewrite T2.
    eexists _, m2, _, leak. split; [reflexivity|]. split; [exact U12|]. split; [lia|]. split; [exact A2|].
    assert (G : forall P, norm_entries P es 0 nds -> norm_document P (pv_header (p_var pd)) es ((XML_PI ++ XML_OPEN ++ x) ++ txt ++ XML_CLOSE)).
    { intros P N. exists (XML_OPEN ++ x ++ txt ++ XML_CLOSE), slave, nds. split; [unfold XML_PI; rewrite <- !app_assoc; reflexivity|]. split; [|auto].
      assert (Q : XML_OPEN ++ x ++ txt ++ XML_CLOSE = [] ++ [60] ++ cstr "MBusData" ++ attrs_text [] ++ [62] ++ (([10; 10] ++ x) ++ txt) ++ [60; 47] ++ cstr "MBusData" ++ [62] ++ [10]).
      { rewrite <- !app_assoc. reflexivity. }
      rewrite Q. apply rn_elem; [constructor|apply nameb_ok; reflexivity|constructor| |apply rn_nil, blanksb_ok; reflexivity].
      apply (renders_app _ [slave] txt nds); [|assumption]. apply renders_ws; [apply blanksb_ok; reflexivity|assumption]. }
    match goal with |- norm_document _ _ _ ?t /\ _ => replace t with ((XML_PI ++ XML_OPEN ++ x) ++ txt ++ XML_CLOSE) by (rewrite <- ?app_assoc; reflexivity) end.
    split; [apply G; exact NE|]. rewrite in_app_iff. intros J. apply G, NF. tauto.
  - destruct K as [K A2]. exists None, m2, (u1 ++ u2), leak. split; [reflexivity|]. split; [exact U12|]. split; [lia|]. split; [exact A2|]. rewrite in_app_iff. auto.
Qed.
