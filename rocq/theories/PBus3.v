(** Proofs about a bus of slaves: scanning. *)
From Coq Require Import Permutation.
From Verif Require Import CBase PBase CStr MFrame MCodec MVar MText SVar SText SCodec PCodec SXml MXml SWire SFrame PFrame PFrame2 PVar3 PXml2 PXml4 MRecv SRecv PRecv PropFrame PropRecv MSecond SSecond PSecond MProto SProto PProto PProto2 PropProto PReq SReq PReq2 SBus PBus PBus2.

(** ** Lists *)
Lemma filter_ext_all {A} (f g : A -> bool) l : (forall x, In x l -> f x = g x) -> filter f l = filter g l.
Proof.
  induction l as [|x l IH]; intros H; [reflexivity|]. cbn. rewrite (H x (or_introl eq_refl)), IH by (intros; apply H; right; assumption). reflexivity.
Qed.
Lemma filter_filter {A} (f g : A -> bool) l : filter f (filter g l) = filter (fun x => g x && f x) l.
Proof. induction l as [|x l IH]; [reflexivity|]. cbn. destruct (g x); cbn; rewrite IH; reflexivity. Qed.
Lemma filter_all {A} (f : A -> bool) l : (forall x, In x l -> f x = true) -> filter f l = l.
Proof.
  induction l as [|x l IH]; intros H; [reflexivity|]. cbn. rewrite (H x (or_introl eq_refl)), IH by (intros; apply H; right; assumption). reflexivity.
Qed.
Lemma filter_none {A} (f : A -> bool) l : (forall x, In x l -> f x = false) -> filter f l = [].
Proof.
  induction l as [|x l IH]; intros H; [reflexivity|]. cbn. rewrite (H x (or_introl eq_refl)), IH by (intros; apply H; right; assumption). reflexivity.
Qed.
Lemma filter_split {A} (f g : A -> bool) l : (forall x, f x = true -> g x = false) -> Permutation (filter f l ++ filter g l) (filter (fun x => f x || g x) l).
Proof.
  intros D. induction l as [|x l IH]; [reflexivity|]. cbn. destruct (f x) eqn:F.
  - rewrite (D x F). cbn. constructor. assumption.
  - cbn. destruct (g x); [|assumption]. etransitivity; [symmetry; apply Permutation_middle|]. constructor. assumption.
Qed.
Lemma partition {A} (d : A -> Z) cs l : NoDup cs -> (forall x, In x l -> In (d x) cs) -> Permutation (flat_map (fun c => filter (fun x => d x =? c) l) cs) l.
Proof.
  intros Nd Hin. assert (P : Permutation (flat_map (fun c => filter (fun x => d x =? c) l) cs) (filter (fun x => existsb (fun c => d x =? c) cs) l)).
  { clear Hin. induction Nd as [|c cs Hc Nd IH]; cbn [flat_map existsb].
    - rewrite filter_none by reflexivity. reflexivity.
    - etransitivity; [apply Permutation_app_head; exact IH|]. apply filter_split. intros x E. apply Z.eqb_eq in E. subst c.
      destruct (existsb _ cs) eqn:F; [|reflexivity]. apply existsb_exists in F. destruct F as (c & I & F). apply Z.eqb_eq in F. subst c. contradiction. }
  rewrite P. rewrite filter_all; [reflexivity|]. intros x Hx. apply existsb_exists. exists (d x). split; [auto|apply Z.eqb_refl].
Qed.
Lemma nodup_map_filter {A C} (g : A -> C) f l : NoDup (map g l) -> NoDup (map g (filter f l)).
Proof.
  induction l as [|x l IH]; cbn; intros H; [constructor|]. inversion_clear H as [|? ? H1 H2]. destruct (f x); [|auto]. cbn. constructor; [|auto].
  intros I. apply H1. apply in_map_iff in I. destruct I as (y & E & I). apply filter_In in I. apply in_map_iff. exists y. tauto.
Qed.

(** ** Digits of an identification number *)
Definition dig (x : slave) (i : nat) : Z :=
  let a k := nth k (sl_addr x) 0 in
  match i with
  | 0%nat => a 3%nat / 16 | 1%nat => a 3%nat mod 16 | 2%nat => a 2%nat / 16 | 3%nat => a 2%nat mod 16
  | 4%nat => a 1%nat / 16 | 5%nat => a 1%nat mod 16 | 6%nat => a 0%nat / 16 | _ => a 0%nat mod 16
  end.
Lemma addr_list x : wf_slave x -> exists a0 a1 a2 a3 a4 a5 a6 a7, sl_addr x = [a0; a1; a2; a3; a4; a5; a6; a7].
Proof.
  intros (_ & _ & Hl & _). unfold sl_addr. destruct (sl_header x) as [|a0 [|a1 [|a2 [|a3 [|a4 [|a5 [|a6 [|a7 l]]]]]]]]; try discriminate. cbn. eauto 10.
Qed.
(** The mask matches in one digit, and in the bytes after the identification number. *)
Definition fits_digit (s : list Z) (x : slave) (i : nat) : bool := digit_matches (val (nth i s 0)) (dig x i).
Definition fits_rest (s : list Z) (x : slave) : bool :=
  byte_matches (nth 4 (mbytes s) 0) (nth 4 (sl_addr x) 0) && byte_matches (nth 5 (mbytes s) 0) (nth 5 (sl_addr x) 0) &&
  byte_matches (nth 6 (mbytes s) 0) (nth 6 (sl_addr x) 0) && byte_matches (nth 7 (mbytes s) 0) (nth 7 (sl_addr x) 0).
Lemma val_range c : digit_value c <> None -> 0 <= val c < 16.
Proof.
  unfold val, digit_value. intros H. repeat match goal with |- context [if ?b then _ else _] => destruct b eqn:? end; try lia.
Qed.
Lemma hi_val s i j : hex16 s -> (i < 16)%nat -> (j < 16)%nat -> (16 * val (nth i s 0) + val (nth j s 0)) / 16 = val (nth i s 0) /\ (16 * val (nth i s 0) + val (nth j s 0)) mod 16 = val (nth j s 0).
Proof.
  intros [Hl Hd] Hi Hj. rewrite Forall_forall in Hd.
  assert (0 <= val (nth i s 0) < 16) by (apply val_range, Hd, nth_In; lia). assert (0 <= val (nth j s 0) < 16) by (apply val_range, Hd, nth_In; lia). lia.
Qed.
Lemma matches_digits s x : hex16 s -> wf_slave x -> matches (mbytes s) x = forallb (fits_digit s x) (seq 0 8) && fits_rest s x.
Proof.
  intros Hs Hx. destruct (addr_list x Hx) as (a0 & a1 & a2 & a3 & a4 & a5 & a6 & a7 & E). unfold matches, fits_rest, fits_digit, dig. rewrite E.
  unfold mbytes, id_byte_matches. cbn [nth seq forallb].
  rewrite (proj1 (hi_val s 6 7 Hs ltac:(lia) ltac:(lia))), (proj2 (hi_val s 6 7 Hs ltac:(lia) ltac:(lia))),
    (proj1 (hi_val s 4 5 Hs ltac:(lia) ltac:(lia))), (proj2 (hi_val s 4 5 Hs ltac:(lia) ltac:(lia))),
    (proj1 (hi_val s 2 3 Hs ltac:(lia) ltac:(lia))), (proj2 (hi_val s 2 3 Hs ltac:(lia) ltac:(lia))),
    (proj1 (hi_val s 0 1 Hs ltac:(lia) ltac:(lia))), (proj2 (hi_val s 0 1 Hs ltac:(lia) ltac:(lia))).
  repeat match goal with |- context [digit_matches ?a ?b] => generalize (digit_matches a b); intro end.
  repeat match goal with |- context [byte_matches ?a ?b] => generalize (byte_matches a b); intro end.
  repeat match goal with b : bool |- _ => destruct b; cbn; try reflexivity end.
Qed.
Lemma nth_upd : forall s i j v, (i < length s)%nat -> nth j (upd s i v) 0 = if (j =? i)%nat then v else nth j s 0.
Proof.
  induction s as [|c s IH]; intros [|i] [|j] v H; cbn [upd nth Nat.eqb]; try reflexivity; cbn in H; try lia. apply IH. lia.
Qed.
Lemma upd_upd : forall s i v v', upd (upd s i v) i v' = upd s i v'.
Proof. induction s as [|c s IH]; intros [|i] v v'; cbn [upd]; try reflexivity. rewrite IH. reflexivity. Qed.
Lemma upd_same : forall s i, (i < length s)%nat -> upd s i (nth i s 0) = s.
Proof. induction s as [|c s IH]; intros [|i] H; cbn [upd nth]; try reflexivity. rewrite IH by (cbn in H; lia). reflexivity. Qed.
Lemma upd_firstn : forall s i n v, firstn n (upd s i v) = upd (firstn n s) i v.
Proof. induction s as [|c s IH]; intros [|i] [|n] v; cbn [upd firstn]; try reflexivity. rewrite IH. reflexivity. Qed.
Lemma upd_Forall (P : Z -> Prop) : forall s i v, Forall P s -> P v -> Forall P (upd s i v).
Proof. induction s as [|c s IH]; intros [|i] v H Hv; cbn [upd]; try assumption; inversion_clear H; constructor; auto. Qed.
Definition digit (c : Z) : Prop := 48 <= c <= 57.
Lemma digit_val c : digit c -> digit_value c = Some (c - 48).
Proof. unfold digit, digit_value. intros H. destruct (Z.leb_spec 48 c); destruct (Z.leb_spec c 57); try lia. reflexivity. Qed.
Lemma upd_mask s p c : wf_mask s -> digit c -> wf_mask (upd s p c).
Proof.
  intros [[Hl Hd] Hm] Hc. split; [split; [rewrite upd_length; assumption|apply upd_Forall; [assumption|rewrite digit_val by assumption; discriminate]]|].
  rewrite upd_firstn. apply upd_Forall; [assumption|]. left. exact Hc.
Qed.
Lemma wild_val c : wildcard c -> val c = 15.
Proof. intros [->| ->]; reflexivity. Qed.

Lemma matches_upd s p c x : wf_mask s -> wf_slave x -> (p < 8)%nat -> wildcard (nth p s 0) -> digit c ->
  matches (mbytes (upd s p c)) x = matches (mbytes s) x && (dig x p + 48 =? c).
Proof.
  intros Hs Hx Hp Hw Hc. pose proof (upd_mask s p c Hs Hc) as Hs'. pose proof (proj1 (proj1 Hs)) as Hl.
  rewrite !matches_digits by (try assumption; try apply Hs; apply Hs').
  assert (R : fits_rest (upd s p c) x = fits_rest s x).
  { unfold fits_rest, mbytes. cbn [nth]. rewrite !nth_upd by lia. do 8 (destruct p as [|p]; [reflexivity|]). lia. }
  rewrite R.
  assert (D : forall i, fits_digit (upd s p c) x i = if (i =? p)%nat then (dig x p + 48 =? c) else fits_digit s x i).
  { intros i. unfold fits_digit. rewrite nth_upd by lia. destruct (Nat.eqb_spec i p) as [->|]; [|reflexivity].
    unfold digit_matches, val. rewrite digit_val by assumption. unfold digit in Hc. destruct (Z.eqb_spec (c - 48) 15); [lia|].
    destruct (Z.eqb_spec (c - 48) (dig x p)); destruct (Z.eqb_spec (dig x p + 48) c); try reflexivity; lia. }
  assert (W : fits_digit s x p = true) by (unfold fits_digit; rewrite (wild_val _ Hw); reflexivity).
  cbn [seq forallb]. rewrite !D. clear D R Hs' Hs Hw. generalize dependent (fits_digit s x). intros g W.
  generalize (dig x p + 48 =? c) (fits_rest s x). intros b b'.
  do 8 (destruct p as [|p]; [cbn [Nat.eqb]; rewrite W; clear; repeat match goal with |- context [g ?i] => destruct (g i); cbn [andb]; try (destruct b, b'; reflexivity) end|]). lia.
Qed.

Lemma same_id s x y : wf_mask s -> wf_slave x -> wf_slave y -> (forall i, (i < 8)%nat -> ~ wildcard (nth i s 0)) ->
  matches (mbytes s) x = true -> matches (mbytes s) y = true -> firstn 4 (sl_addr x) = firstn 4 (sl_addr y).
Proof.
  intros Hs Hx Hy Hn. rewrite !matches_digits by (assumption || apply Hs). intros H1 H2.
  apply andb_true_iff in H1. apply andb_true_iff in H2. destruct H1 as [H1 _]. destruct H2 as [H2 _].
  rewrite forallb_forall in H1, H2.
  assert (E : forall i, (i < 8)%nat -> dig x i = dig y i).
  { intros i Hi. specialize (H1 i). specialize (H2 i). rewrite in_seq in H1, H2. specialize (H1 ltac:(lia)). specialize (H2 ltac:(lia)). specialize (Hn i Hi).
    unfold fits_digit, digit_matches in H1, H2. destruct Hs as [[Hl Hd] Hm]. rewrite Forall_forall in Hm.
    assert (M : mask_digit (nth i s 0)). { apply Hm. replace (nth i s 0) with (nth i (firstn 8 s) 0). { apply nth_In. rewrite firstn_length. lia. } rewrite <- (firstn_skipn 8 s) at 2. rewrite app_nth1 by (rewrite firstn_length; lia). reflexivity. }
    assert (V : val (nth i s 0) <> 15). { destruct M as [M|M]; [|contradiction]. unfold val. rewrite digit_val by exact M. lia. }
    destruct (Z.eqb_spec (val (nth i s 0)) 15); [contradiction|]. cbn in H1, H2. lia. }
  destruct (addr_list x Hx) as (a0 & a1 & a2 & a3 & a4 & a5 & a6 & a7 & Ex). destruct (addr_list y Hy) as (b0 & b1 & b2 & b3 & b4 & b5 & b6 & b7 & Ey).
  pose proof (E 0%nat ltac:(lia)) as E0. pose proof (E 1%nat ltac:(lia)) as E1. pose proof (E 2%nat ltac:(lia)) as E2. pose proof (E 3%nat ltac:(lia)) as E3.
  pose proof (E 4%nat ltac:(lia)) as E4. pose proof (E 5%nat ltac:(lia)) as E5. pose proof (E 6%nat ltac:(lia)) as E6. pose proof (E 7%nat ltac:(lia)) as E7. clear E.
  unfold dig in *. rewrite Ex, Ey in *. cbn [nth] in *. cbn [firstn].
  replace a0 with b0 by lia. replace a1 with b1 by lia. replace a2 with b2 by lia. replace a3 with b3 by lia. reflexivity.
Qed.
Lemma decimal_dig x i : decimal_id x -> wf_slave x -> (i < 8)%nat -> 0 <= dig x i <= 9.
Proof.
  intros Hd Hx Hi. pose proof Hx as (V & _ & Hl & _). destruct (addr_list x Hx) as (a0 & a1 & a2 & a3 & a4 & a5 & a6 & a7 & E).
  assert (Hb : Forall (fun b => 0 <= b < 256) (sl_addr x)).
  { unfold sl_addr. destruct V as (_ & _ & _ & V & _). apply Forall_app in V. destruct V as [V _]. rewrite <- (firstn_skipn 8) in V. apply Forall_app in V. revert V; intros [V _]; revert V; apply Forall_impl; unfold byte_range; intros; lia. }
  unfold decimal_id in Hd. unfold dig. rewrite E in *. cbn [firstn nth] in *.
  repeat match goal with H : Forall _ (_ :: _) |- _ => inversion_clear H end.
  do 8 (destruct i as [|i]; [lia|]). lia.
Qed.

Lemma flat_map_ext_all {A C} (f g : A -> list C) l : (forall x, In x l -> f x = g x) -> flat_map f l = flat_map g l.
Proof.
  induction l as [|x l IH]; intros H; [reflexivity|]. cbn. rewrite (H x (or_introl eq_refl)), IH by (intros; apply H; right; assumption). reflexivity.
Qed.
Lemma forall2_app {A C} (R : A -> C -> Prop) l1 l2 k1 k2 : Forall2 R l1 k1 -> Forall2 R l2 k2 -> Forall2 R (l1 ++ l2) (k1 ++ k2).
Proof. induction 1; cbn; auto. Qed.
Definition digits10 : list Z := [48; 49; 50; 51; 52; 53; 54; 55; 56; 57].

Section Bus.
  Variables (h : handle) (slaves : list slave) (B : Type) (wret : B -> Z -> Z) (react : B -> list Z -> B * list ev) (selected : B -> list slave).
  Hypothesis bus : bus_of h slaves B wret react selected.
  Hypothesis mode : hears_slaves h.
  Hypothesis retry : 0 <= max_search_retry h.
  Notation W := (world B).
  Notation fits := (fits slaves).
  Notation R := (max_search_retry h + 2).
  Definition named (x : slave) (t : list Z) : Prop := hex16 t /\ address_text (sl_addr x) t.
  Definition sid (x : slave) : list Z := firstn 4 (sl_addr x).

  Lemma fits_upd s p c : wf_mask s -> (p < 8)%nat -> wildcard (nth p s 0) -> digit c ->
    fits (upd s p c) = filter (fun x => dig x p + 48 =? c) (fits s).
  Proof.
    intros Hs Hp Hw Hc. unfold PBus2.fits. rewrite filter_filter. apply filter_ext_all. intros x Hx.
    apply matches_upd; try assumption. pose proof (bus_slaves _ _ _ _ _ _ bus) as F. rewrite Forall_forall in F. auto.
  Qed.
  Lemma fits_parts s p : wf_mask s -> (p < 8)%nat -> wildcard (nth p s 0) -> Forall decimal_id (fits s) ->
    Permutation (flat_map (fun c => fits (upd s p c)) digits10) (fits s).
  Proof.
    intros Hs Hp Hw Hd. rewrite (flat_map_ext_all _ (fun c => filter (fun x => dig x p + 48 =? c) (fits s))).
    - apply (partition (fun x => dig x p + 48)).
      + unfold digits10. repeat constructor; cbn; lia.
      + intros x Hx. rewrite Forall_forall in Hd. pose proof (fits_wf h slaves B wret react selected bus s) as F. rewrite Forall_forall in F.
        pose proof (decimal_dig x p (Hd x Hx) (F x Hx) Hp) as D. unfold digits10. cbn. lia.
    - intros c Hc. apply fits_upd; try assumption. unfold digits10 in Hc. cbn in Hc. unfold digit. lia.
  Qed.

  (** What a scan of the slaves [l] does: it ends, reports them, and sends at most R times [n] telegrams. *)
  Definition scanned (x : out (Z * W)) (w : W) (l : list slave) (n : nat) : Prop :=
    exists w' new found N, x = Done (0, w') /\ w_evs w' = [] /\ w_log w' = w_log w ++ new /\
      Forall2 named found (reports new) /\ Permutation found l /\ Z.of_nat (sends new) <= R * Z.of_nat N /\ (N <= n)%nat.

  Lemma digits_scanned deeper s p e : wf_mask s -> (p < 8)%nat ->
    (forall c (w : W), digit c -> (2 <= length (fits (upd s p c)))%nat -> w_evs w = [] -> scanned (deeper (upd s p c) w) w (fits (upd s p c)) (10 + 5 * length (fits (upd s p c)) * e)) ->
    forall cs, Forall digit cs -> forall m w, (forall c, upd m p c = upd s p c) -> w_evs w = [] ->
    scanned (scan_digits B wret react deeper h m p cs w) w (flat_map (fun c => fits (upd s p c)) cs)
      (length cs + 5 * length (flat_map (fun c => fits (upd s p c)) cs) * (e + 1)).
  Proof.
    intros Hs Hp Dp. induction 1 as [|c cs Hc _ IH]; intros m w Hm Hw; cbn [scan_digits flat_map length].
    - exists w, [], [], 0%nat. rewrite app_nil_r. cbn. repeat split; auto; try lia. 
    - pose proof (upd_mask s p c Hs Hc) as Hs'. rewrite Hm.
      destruct (probe_bus h slaves B wret react selected bus mode retry (upd s p c) (repeat 0 17) w Hs' ltac:(rewrite repeat_length; lia) Hw)
        as (r & buf & w1 & new & E1 & E2 & E3 & E4 & E5 & E6 & E7).
      rewrite E1. cbn [obind]. assert (Hm' : forall c', upd (upd s p c) p c' = upd s p c') by (intros; apply upd_upd).
      unfold probe_outcome in E7. destruct (fits (upd s p c)) as [|x [|y l]] eqn:Ef.
      + subst r. change (PROBE_NOTHING =? PROBE_SINGLE) with false. change (PROBE_NOTHING =? PROBE_COLLISION) with false. change (PROBE_NOTHING =? PROBE_NOTHING) with true. cbv iota.
        destruct (IH (upd s p c) w1 Hm' E2) as (w' & new' & found & N & H1 & H2 & H3 & H4 & H5 & H6 & H7).
        exists w', (new ++ new'), found, (1 + N)%nat. split; [assumption|]. split; [assumption|]. split; [rewrite H3, E4, app_assoc; reflexivity|].
        rewrite reports_app, sends_app, E6. cbn [app]. split; [assumption|]. split; [assumption|]. split; lia.
      + destruct E7 as (-> & Hx & Ha). change (PROBE_SINGLE =? PROBE_SINGLE) with true. cbv iota.
        destruct (IH (upd s p c) (log w1 (Found (c_text buf))) Hm') as (w' & new' & found & N & H1 & H2 & H3 & H4 & H5 & H6 & H7); [exact E2|].
        exists w', (new ++ [Found (c_text buf)] ++ new'), (x :: found), (1 + N)%nat. split; [assumption|]. split; [assumption|].
        split; [rewrite H3; unfold log; cbn [w_log]; rewrite E4, <- !app_assoc; reflexivity|].
        rewrite !reports_app, !sends_app, E6. cbn [app reports flat_map sends filter length]. split; [constructor; [split; assumption|assumption]|].
        split; [constructor; assumption|]. split; lia.
      + subst r. change (PROBE_COLLISION =? PROBE_SINGLE) with false. change (PROBE_COLLISION =? PROBE_COLLISION) with true. cbv iota.
        destruct (Dp c w1 Hc ltac:(rewrite Ef; cbn; lia) E2) as (w2 & new2 & found2 & N2 & G1 & G2 & G3 & G4 & G5 & G6 & G7). rewrite G1. cbn [obind].
        destruct (IH (upd s p c) w2 Hm' G2) as (w' & new' & found & N & H1 & H2 & H3 & H4 & H5 & H6 & H7).
        exists w', (new ++ new2 ++ new'), (found2 ++ found), (1 + N2 + N)%nat. split; [assumption|]. split; [assumption|].
        split; [rewrite H3, G3, E4, <- !app_assoc; reflexivity|]. rewrite !reports_app, !sends_app, E6. cbn [app].
        split; [apply forall2_app; assumption|]. split; [rewrite Ef in G5; exact (Permutation_app G5 H5)|]. split; [lia|].
        rewrite Ef in G7. cbn [app length] in G7 |- *. rewrite app_length. cbn [length] in *. nia.
  Qed.

  Lemma wild_test c : (c =? 102) || (c =? 70) = true <-> wildcard c.
  Proof. unfold wildcard. rewrite orb_true_iff, !Z.eqb_eq. tauto. Qed.

  Lemma scan_scanned : forall n s (w : W), wf_mask s -> w_evs w = [] -> (n <= 16)%nat ->
    (forall i, (i < 16 - n)%nat -> ~ wildcard (nth i s 0)) -> (exists q, (16 - n <= q < 8)%nat /\ wildcard (nth q s 0)) ->
    Forall decimal_id (fits s) -> NoDup (map sid (fits s)) ->
    scanned (scan_from B wret react n h s w) w (fits s) (10 + 5 * length (fits s) * (n - 8)).
  Proof.
    induction n as [|n IH]; intros s w Hs Hw Hn Hpre (q & Hq & Wq) Hd Nd; [lia|]. cbn [scan_from].
    replace (length s =? 16)%nat with true by (symmetry; apply Nat.eqb_eq, Hs). cbn [negb].
    set (pos := (16 - S n)%nat) in *. assert (Hl : length s = 16%nat) by apply Hs. 
    destruct ((nth pos s 0 =? 102) || (nth pos s 0 =? 70)) eqn:Ew.
    - apply wild_test in Ew. assert (Hpos : (pos < 8)%nat) by lia.
      pose proof (fits_parts s pos Hs Hpos Ew Hd) as P.
      destruct (digits_scanned (scan_from B wret react n h) s pos (n - 8) Hs Hpos) with (cs := digits10) (m := s) (w := w) as (w' & new & found & N & H1 & H2 & H3 & H4 & H5 & H6 & H7).
      + intros c w1 Hc H2 Hw1. apply IH; [apply upd_mask; assumption|assumption|lia| | | |].
        * intros i Hi. rewrite nth_upd by lia. destruct (Nat.eqb_spec i pos) as [->|]; [unfold digit in Hc; unfold wildcard; lia|]. apply Hpre. lia.
        * (* otherwise two slaves have the same identification number *)
          assert (X : (exists q, (16 - n <= q < 8)%nat /\ wildcard (nth q (upd s pos c) 0)) \/ forall q, (16 - n <= q < 8)%nat -> ~ wildcard (nth q (upd s pos c) 0)).
          { clear. assert (G : forall k, (exists q, (16 - n <= q < k)%nat /\ wildcard (nth q (upd s pos c) 0)) \/ forall q, (16 - n <= q < k)%nat -> ~ wildcard (nth q (upd s pos c) 0)); [|apply G].
            induction k as [|k [(q & Hq & Wq)|IHk]]; [right; intros; lia|left; exists q; split; [lia|assumption]|].
            destruct (Nat.le_gt_cases (16 - n) k) as [L|G]; [|right; intros; lia].
            destruct ((nth k (upd s pos c) 0 =? 102) || (nth k (upd s pos c) 0 =? 70)) eqn:E.
            - left. exists k. split; [lia|]. apply wild_test. assumption.
            - right. intros q Hq. destruct (Nat.eq_dec q k) as [->|]; [|apply IHk; lia]. intros F. apply wild_test in F. congruence. }
          destruct X as [X|X]; [exact X|]. exfalso.
          assert (All : forall i, (i < 8)%nat -> ~ wildcard (nth i (upd s pos c) 0)).
          { intros i Hi. destruct (Nat.lt_ge_cases i (16 - n)) as [L|G]; [|apply X; lia].
            rewrite nth_upd by lia. destruct (Nat.eqb_spec i pos) as [->|]; [unfold digit in Hc; unfold wildcard; lia|]. apply Hpre. lia. }
          pose proof (fits_wf h slaves B wret react selected bus (upd s pos c)) as Wf.
          assert (Nd' : NoDup (map sid (fits (upd s pos c)))) by (rewrite fits_upd by assumption; apply nodup_map_filter; assumption).
          assert (Mt : Forall (fun x => matches (mbytes (upd s pos c)) x = true) (fits (upd s pos c))) by (apply Forall_forall; intros x Hx; apply filter_In in Hx; tauto).
          destruct (fits (upd s pos c)) as [|x [|y l]]; [cbn in H2; lia|cbn in H2; lia|].
          inversion_clear Wf as [|? ? W1 Wf']. inversion_clear Wf' as [|? ? W2 _]. inversion_clear Mt as [|? ? M1 Mt']. inversion_clear Mt' as [|? ? M2 _].
          cbn [map] in Nd'. inversion_clear Nd' as [|? ? Nin _]. apply Nin. left. symmetry.
          apply (same_id (upd s pos c)); try assumption. apply upd_mask; assumption.
        * rewrite fits_upd by assumption. apply incl_Forall with (fits s); [|assumption]. intros x Hx. apply filter_In in Hx. tauto.
        * rewrite fits_upd by assumption. apply nodup_map_filter. assumption.
      + unfold digits10. repeat constructor; unfold digit; lia.
      + reflexivity.
      + assumption.
      + exists w', new, found, N. split; [exact H1|]. split; [assumption|]. split; [assumption|]. split; [assumption|]. split; [rewrite H5; exact P|]. split; [assumption|].
        rewrite (Permutation_length P) in H7. change (length digits10) with 10%nat in H7. replace (S n - 8)%nat with (n - 8 + 1)%nat by lia. assumption.
    - assert (Nw : ~ wildcard (nth pos s 0)) by (intros F; apply wild_test in F; congruence).
      replace (pos <? 15)%nat with true by (symmetry; apply Nat.ltb_lt; lia).
      destruct (IH s w Hs Hw) as (w' & new & found & N & H1 & H2 & H3 & H4 & H5 & H6 & H7); try assumption; [lia| | |].
      + intros i Hi. destruct (Nat.eq_dec i pos) as [->|]; [assumption|]. apply Hpre. lia.
      + exists q. split; [|assumption]. assert (q <> pos) by (intros ->; contradiction). lia.
      + rewrite H1. cbn [obind]. exists w', new, found, N. split; [reflexivity|]. split; [assumption|]. split; [assumption|]. split; [assumption|]. split; [assumption|]. split; [assumption|].
        clear - H7. nia.
  Qed.

  (** Without a wildcard: one probe, of the mask itself. *)
  Lemma scan_exact : forall n s (w : W), wf_mask s -> w_evs w = [] -> (0 < n <= 16)%nat ->
    (forall i, (16 - n <= i < 16)%nat -> ~ wildcard (nth i s 0)) ->
    exists w' new, scan_from B wret react n h s w = Done (0, w') /\ w_evs w' = [] /\ w_log w' = w_log w ++ new /\ Z.of_nat (sends new) <= R /\
      match fits s with [x] => exists t, reports new = [t] /\ named x t | _ => reports new = [] end.
  Proof.
    induction n as [|n IH]; intros s w Hs Hw Hn Hno; [lia|]. cbn [scan_from].
    replace (length s =? 16)%nat with true by (symmetry; apply Nat.eqb_eq, Hs). cbn [negb].
    set (pos := (16 - S n)%nat) in *. assert (Hl : length s = 16%nat) by apply Hs.
    destruct ((nth pos s 0 =? 102) || (nth pos s 0 =? 70)) eqn:Ew; [exfalso; apply (Hno pos); [lia|apply wild_test; assumption]|].
    destruct (Nat.ltb_spec pos 15) as [L|G].
    - destruct (IH s w Hs Hw ltac:(lia)) as (w' & new & H1 & H2 & H3 & H4 & H5); [intros; apply Hno; lia|].
      rewrite H1. cbn [obind]. exists w', new. auto.
    - assert (n = 0)%nat by lia. subst n. cbn [scan_digits]. rewrite upd_same by lia.
      destruct (probe_bus h slaves B wret react selected bus mode retry s (repeat 0 17) w Hs ltac:(rewrite repeat_length; lia) Hw)
        as (r & buf & w1 & new & E1 & E2 & E3 & E4 & E5 & E6 & E7).
      rewrite E1. cbn [obind]. unfold probe_outcome in E7. destruct (fits s) as [|x [|y l]].
      + subst r. cbn. exists w1, new. auto.
      + destruct E7 as (-> & Hx & Ha). change (PROBE_SINGLE =? PROBE_SINGLE) with true. cbv iota.
        eexists _, (new ++ [Found (c_text buf)]). split; [reflexivity|]. unfold log. cbn [w_evs w_log]. split; [assumption|].
        split; [rewrite E4, app_assoc; reflexivity|]. rewrite sends_app, reports_app, E6. split; [cbn; lia|]. exists (c_text buf). split; [reflexivity|split; assumption].
      + subst r. change (PROBE_COLLISION =? PROBE_SINGLE) with false. change (PROBE_COLLISION =? PROBE_COLLISION) with true. cbv iota. cbn [scan_from].
        replace (length s =? 16)%nat with true by (symmetry; apply Nat.eqb_eq, Hs). cbn [negb obind]. exists w1, new. auto.
  Qed.
End Bus.
