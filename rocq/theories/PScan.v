(** Proofs about scans with callbacks. *)
From Coq Require Import List.
From Coq Require Import Permutation.
From Verif Require Import CBase PBase CStr MFrame MCodec MVar MText SVar SText SCodec PCodec SXml MXml SWire SFrame PFrame PFrame2 PVar3 PXml2 PXml4 MRecv SRecv PRecv PropFrame PropRecv MSecond SSecond PSecond MProto SProto PProto PProto2 PReq SReq PReq2 PropReq SBus PBus PBus2 PBus3 PAny.
From Verif Require Import MMem SMem PMem PMem2 MMemN SMemN PMemN MScan SScan.
Local Open Scope Z_scope.

(** ** Which masks are probed *)
Definition DIGITS : list Z := [48; 49; 50; 51; 52; 53; 54; 55; 56; 57].
Inductive tree (ok : bool) : nat -> list Z -> list visit -> Prop :=
| tree_end m : tree ok 16 m []
| tree_lost p m : ok = false -> tree ok p m []
| tree_wild p m vs : (p < 16)%nat -> wildcard (nth p m 0) -> branch ok p m DIGITS vs -> tree ok p m vs
| tree_skip p m vs : (p < 15)%nat -> ~ wildcard (nth p m 0) -> tree ok (S p) m vs -> tree ok p m vs
| tree_last m vs : ~ wildcard (nth 15 m 0) -> branch ok 15 m [nth 15 m 0] vs -> tree ok 15 m vs
with branch (ok : bool) : nat -> list Z -> list Z -> list visit -> Prop :=
| branch_nil p m : branch ok p m [] []
| branch_coll p m x cs v sub vs : t_mask v = upd m p x -> t_result v = PROBE_COLLISION -> tree ok (S p) (upd m p x) sub -> branch ok p m cs vs -> branch ok p m (x :: cs) (v :: sub ++ vs)
| branch_next p m x cs v vs : t_mask v = upd m p x -> t_result v = PROBE_SINGLE \/ t_result v = PROBE_NOTHING -> branch ok p m cs vs -> branch ok p m (x :: cs) (v :: vs)
| branch_error p m x cs v : t_mask v = upd m p x -> failed v = true -> branch ok p m (x :: cs) [v].
Scheme tree_mut := Minimality for tree Sort Prop with branch_mut := Minimality for branch Sort Prop.
Combined Scheme tree_branch from tree_mut, branch_mut.

Lemma finer_refl p m : finer p m m.
Proof. split; [reflexivity|]. auto. Qed.
Lemma finer_trans p q m m1 m2 : finer p m m1 -> (p <= q)%nat -> finer q m1 m2 -> finer p m m2.
Proof.
  intros [L1 F1] Q [L2 F2]. split; [congruence|]. intros i. destruct (F2 i) as [E|(A & W & D)].
  - rewrite E. apply F1.
  - destruct (F1 i) as [E|(A' & W' & D')]; [right; rewrite <- E; split; [lia|auto]|]. unfold wildcard in W. lia.
Qed.
Lemma finer_upd p m d : (p < length m)%nat -> wildcard (nth p m 0) -> 48 <= d <= 57 -> finer p m (upd m p d).
Proof.
  intros L W D. split; [apply upd_length|]. intros i. rewrite nth_upd by exact L. destruct (Nat.eqb_spec i p) as [->|N]; [right|left; reflexivity]. auto.
Qed.
Lemma tree_finer ok : (forall p m vs, tree ok p m vs -> length m = 16%nat -> Forall (fun v => finer p m (t_mask v)) vs) /\
  (forall p m cs vs, branch ok p m cs vs -> length m = 16%nat -> (p < 16)%nat -> (forall x, In x cs -> finer p m (upd m p x)) -> Forall (fun v => finer p m (t_mask v)) vs).
Proof.
  apply tree_branch.
  - constructor.
  - constructor.
  - intros p m vs L W _ IH Lm. apply IH; [exact Lm|lia|]. intros x I. apply finer_upd; [lia|exact W|]. unfold DIGITS in I. cbn in I. intuition lia.
  - intros p m vs L W _ IH Lm. eapply Forall_impl; [|exact (IH Lm)]. intros v F. eapply finer_trans; [apply finer_refl| |exact F]. lia.
  - intros m vs W _ IH Lm. apply IH; [exact Lm|lia|]. intros x [<-|[]]. rewrite upd_same by lia. apply finer_refl.
  - constructor.
  - intros p m x cs v sub vs E R _ IH1 _ IH2 Lm Lp Hx. assert (F : finer p m (upd m p x)) by (apply Hx; left; reflexivity).
    constructor; [rewrite E; exact F|]. apply Forall_app. split; [|apply IH2; auto; intros y I; apply Hx; right; exact I].
    eapply Forall_impl; [|apply IH1; rewrite upd_length; exact Lm]. intros u Fu. eapply finer_trans; [exact F| |exact Fu]. lia.
  - intros p m x cs v vs E R _ IH2 Lm Lp Hx. constructor; [rewrite E; apply Hx; left; reflexivity|]. apply IH2; auto; intros y I; apply Hx; right; exact I.
  - intros p m x cs v E R Lm Lp Hx. constructor; [rewrite E; apply Hx; left; reflexivity|constructor].
Qed.

Lemma split_cons {A} (v : A) vs pre u post : v :: vs = pre ++ u :: post -> pre = [] /\ u = v \/ exists pre', pre = v :: pre' /\ vs = pre' ++ u :: post.
Proof. destruct pre as [|x pre]; cbn; intros E; injection E as -> E; [left; auto|right; exists pre; auto]. Qed.
Lemma split_app {A} (l1 l2 pre post : list A) u : l1 ++ l2 = pre ++ u :: post -> (exists post1, l1 = pre ++ u :: post1) \/ exists pre', pre = l1 ++ pre' /\ l2 = pre' ++ u :: post.
Proof.
  revert pre. induction l1 as [|x l1 IH]; intros pre E; cbn in E; [right; exists pre; auto|]. destruct pre as [|y pre]; cbn in E; injection E as -> E; [left; exists l1; reflexivity|].
  destruct (IH pre E) as [[p1 ->]|(p1 & -> & ->)]; [left; exists p1; reflexivity|right; exists p1; auto].
Qed.
Lemma child_deeper pos p m : (pos <= p)%nat -> (p < 16)%nat -> length m = 16%nat -> forall m', (forall i, (pos <= i < p)%nat -> ~ wildcard (nth i m 0)) -> child p m m' -> child pos m m'.
Proof.
  intros Q Lp Lm m' N [(q & d & Hq & Wq & Nq & D & E)|[A ->]].
  - left. exists q, d. split; [lia|]. split; [exact Wq|]. split; [|auto]. intros i I. destruct (le_lt_dec p i); [apply Nq; lia|apply N; lia].
  - right. split; [|reflexivity]. intros i I. destruct (le_lt_dec p i); [apply A; lia|apply N; lia].
Qed.
Lemma tree_ordered ok pos : (forall p m vs, tree ok p m vs -> length m = 16%nat -> (pos <= p)%nat -> (forall i, (pos <= i < p)%nat -> ~ wildcard (nth i m 0)) -> ordered pos m vs) /\
  (forall p m cs vs, branch ok p m cs vs -> length m = 16%nat -> (pos <= p)%nat -> (p < 16)%nat -> (forall i, (pos <= i < p)%nat -> ~ wildcard (nth i m 0)) ->
    (forall x, In x cs -> ~ wildcard x /\ child pos m (upd m p x)) -> ordered pos m vs).
Proof.
  apply tree_branch.
  - intros m _ _ _ pre v post E. destruct pre; discriminate.
  - intros p m _ _ _ _ pre v post E. destruct pre; discriminate.
  - intros p m vs L W _ IH Lm Hp N. apply IH; try assumption; try lia. intros x I. assert (D : 48 <= x <= 57) by (unfold DIGITS in I; cbn in I; intuition lia). split; [unfold wildcard; lia|].
    left. exists p, x. split; [lia|]. auto.
  - intros p m vs L W _ IH Lm Hp N. apply IH; try assumption; try lia. intros i I. destruct (Nat.eq_dec i p) as [->|]; [exact W|apply N; lia].
  - intros m vs W _ IH Lm Hp N. apply IH; try assumption; try lia. intros x [<-|[]]. split; [exact W|]. rewrite upd_same by lia. right. split; [|reflexivity].
    intros i I. destruct (Nat.eq_dec i 15) as [->|]; [exact W|apply N; lia].
  - intros p m _ _ _ _ _ pre v post E. destruct pre; discriminate.
  - intros p m x cs v sub vs E R _ IH1 _ IH2 Lm Hp Lp N Hx pre u post Es. destruct (Hx x (or_introl eq_refl)) as [Wx Cx].
    assert (N1 : forall i, (pos <= i < S p)%nat -> ~ wildcard (nth i (upd m p x) 0)).
    { intros i I. rewrite nth_upd by lia. destruct (Nat.eqb_spec i p); [exact Wx|apply N; lia]. }
    destruct (split_cons _ _ _ _ _ Es) as [[-> ->]|(pre1 & -> & Es1)]; [left; rewrite E; exact Cx|].
    destruct (split_app _ _ _ _ _ Es1) as [[post1 Es2]|(pre2 & -> & Es2)].
    + destruct (IH1 ltac:(rewrite upd_length; exact Lm) ltac:(lia) N1 pre1 u post1 Es2) as [C|(y & I & Ry & C)].
      * right. exists v. split; [left; reflexivity|]. rewrite E. auto.
      * right. exists y. split; [right; exact I|auto].
    + destruct (IH2 Lm Hp Lp N ltac:(intros y I; apply Hx; right; exact I) pre2 u post Es2) as [C|(y & I & Ry & C)]; [left; exact C|].
      right. exists y. split; [right; apply in_or_app; right; exact I|auto].
  - intros p m x cs v vs E R _ IH2 Lm Hp Lp N Hx pre u post Es. destruct (split_cons _ _ _ _ _ Es) as [[-> ->]|(pre1 & -> & Es1)]; [left; rewrite E; apply Hx; left; reflexivity|].
    destruct (IH2 Lm Hp Lp N ltac:(intros y I; apply Hx; right; exact I) pre1 u post Es1) as [C|(y & I & Ry & C)]; [left; exact C|]. right. exists y. split; [right; exact I|auto].
  - intros p m x cs v E R Lm Hp Lp N Hx pre u post Es. destruct (split_cons _ _ _ _ _ Es) as [[-> ->]|(pre1 & -> & Es1)]; [left; rewrite E; apply Hx; left; reflexivity|]. destruct pre1; discriminate.
Qed.

(** Without errors, everything is probed: the first masks, and those that narrow a mask with a collision. *)
Lemma child_at pos p m m' : (pos <= p < 16)%nat -> wildcard (nth p m 0) -> (forall i, (pos <= i < p)%nat -> ~ wildcard (nth i m 0)) -> child pos m m' -> exists d, In d DIGITS /\ m' = upd m p d.
Proof.
  intros Hp W N [(q & d & Hq & Wq & Nq & D & E)|[A _]]; [|destruct (A p ltac:(lia) W)].
  assert (q = p). { destruct (lt_eq_lt_dec q p) as [[L|L]|L]; [destruct (N q ltac:(lia) Wq)|exact L|destruct (Nq p ltac:(lia) W)]. } subst q.
  exists d. split; [|exact E]. unfold DIGITS. assert (X : d = 48 \/ d = 49 \/ d = 50 \/ d = 51 \/ d = 52 \/ d = 53 \/ d = 54 \/ d = 55 \/ d = 56 \/ d = 57) by lia. cbn. intuition.
Qed.
Lemma child_none pos m m' : (forall i, (pos <= i < 16)%nat -> ~ wildcard (nth i m 0)) -> child pos m m' -> m' = m.
Proof. intros N [(q & d & Hq & Wq & _)|[_ E]]; [destruct (N q Hq Wq)|exact E]. Qed.
Lemma narrowed_more pos all all' vs : (forall v, In v all -> In v all') -> narrowed pos all vs -> narrowed pos all' vs.
Proof. intros I H u Iu R m' C. destruct (H u Iu R m' C) as (v & Iv & E). exists v. auto. Qed.
Lemma tree_complete pos :
  (forall p m vs, tree true p m vs -> length m = 16%nat -> (pos <= p)%nat -> (forall i, (pos <= i < p)%nat -> ~ wildcard (nth i m 0)) -> Forall (fun v => failed v = false) vs ->
    (forall m', child pos m m' -> (p = 16%nat /\ m' = m) \/ probed vs m') /\ narrowed pos vs vs) /\
  (forall p m cs vs, branch true p m cs vs -> length m = 16%nat -> (pos <= p)%nat -> (p < 16)%nat -> (forall i, (pos <= i < p)%nat -> ~ wildcard (nth i m 0)) -> (forall x, In x cs -> ~ wildcard x) -> Forall (fun v => failed v = false) vs ->
    (forall x, In x cs -> probed vs (upd m p x)) /\ narrowed pos vs vs).
Proof.
  apply tree_branch.
  - intros m Lm Hp N _. split; [intros m' C; left; split; [reflexivity|exact (child_none _ _ _ N C)]|intros u []].
  - discriminate.
  - intros p m vs L W _ IH Lm Hp N F. destruct (IH Lm Hp L N) as [A B]; [intros x I; unfold DIGITS in I; cbn in I; unfold wildcard; intuition lia|exact F|].
    split; [|exact B]. intros m' C. right. destruct (child_at pos p m m' ltac:(lia) W N C) as (d & I & ->). apply A, I.
  - intros p m vs L W _ IH Lm Hp N F. destruct (IH Lm ltac:(lia)) as [A B]; [intros i I; destruct (Nat.eq_dec i p) as [->|]; [exact W|apply N; lia]|exact F|].
    split; [|exact B]. intros m' C. destruct (A m' C) as [[X _]|X]; [lia|right; exact X].
  - intros m vs W _ IH Lm Hp N F. destruct (IH Lm Hp ltac:(lia) N) as [A B]; [intros x [<-|[]]; exact W|exact F|].
    split; [|exact B]. intros m' C. right. rewrite (child_none pos m m' ltac:(intros i I; destruct (Nat.eq_dec i 15) as [->|]; [exact W|apply N; lia]) C).
    specialize (A _ (or_introl eq_refl)). rewrite upd_same in A by lia. exact A.
  - intros p m _ _ _ _ _ _. split; [intros x []|intros u []].
  - intros p m x cs v sub vs E R _ IH1 _ IH2 Lm Hp Lp N Hx F. inversion_clear F as [|? ? F1 F2]. apply Forall_app in F2 as [F2 F3]. pose proof (Hx x (or_introl eq_refl)) as Wx.
    assert (N1 : forall i, (pos <= i < S p)%nat -> ~ wildcard (nth i (upd m p x) 0)).
    { intros i I. rewrite nth_upd by lia. destruct (Nat.eqb_spec i p); [exact Wx|apply N; lia]. }
    destruct (IH1 ltac:(rewrite upd_length; exact Lm) ltac:(lia) N1 F2) as [A1 B1]. destruct (IH2 Lm Hp Lp N ltac:(intros y I; apply Hx; right; exact I) F3) as [A2 B2].
    assert (I1 : forall u, In u sub -> In u (v :: sub ++ vs)) by (intros u I; right; apply in_or_app; left; exact I).
    assert (I2 : forall u, In u vs -> In u (v :: sub ++ vs)) by (intros u I; right; apply in_or_app; right; exact I). split.
    + intros y [<-|I]; [exists v; split; [left; reflexivity|exact E]|]. destruct (A2 y I) as (u & Iu & Eu). exists u. auto.
    + intros u [<-|I] Ru m' C.
      * rewrite E in C. destruct (A1 m' C) as [[_ ->]|(u & Iu & Eu)]; [exists v; split; [left; reflexivity|exact E]|exists u; auto].
      * apply in_app_or in I as [I|I]; [exact (narrowed_more _ _ _ _ I1 B1 u I Ru m' C)|exact (narrowed_more _ _ _ _ I2 B2 u I Ru m' C)].
  - intros p m x cs v vs E R _ IH2 Lm Hp Lp N Hx F. inversion_clear F as [|? ? F1 F3].
    destruct (IH2 Lm Hp Lp N ltac:(intros y I; apply Hx; right; exact I) F3) as [A2 B2].
    assert (I2 : forall u, In u vs -> In u (v :: vs)) by (intros u I; right; exact I). split.
    + intros y [<-|I]; [exists v; split; [left; reflexivity|exact E]|]. destruct (A2 y I) as (u & Iu & Eu). exists u. auto.
    + intros u [<-|I] Ru m' C; [destruct R as [R|R]; rewrite R in Ru; discriminate|exact (narrowed_more _ _ _ _ I2 B2 u I Ru m' C)].
  - intros p m x cs v E R Lm Hp Lp N Hx F. inversion_clear F as [|? ? F1 F3]. congruence.
Qed.

(** No mask is probed twice if the last character is a wildcard. *)
Lemma branch_pos ok p m cs vs : branch ok p m cs vs -> length m = 16%nat -> (p < 16)%nat -> Forall (fun v => In (nth p (t_mask v) 0) cs) vs.
Proof.
  intros H. induction H as [p m|p m x cs v sub vs E R T H IH|p m x cs v vs E R H IH|p m x cs v E R]; intros Lm Lp.
  - constructor.
  - constructor; [rewrite E, nth_upd by lia; rewrite Nat.eqb_refl; left; reflexivity|]. apply Forall_app. split.
    + eapply Forall_impl; [|apply (proj1 (tree_finer ok) _ _ _ T); rewrite upd_length; exact Lm]. intros u [_ F]. destruct (F p) as [F1|(F1 & _)]; [|lia].
      rewrite F1, nth_upd by lia. rewrite Nat.eqb_refl. left. reflexivity.
    + eapply Forall_impl; [|apply IH; assumption]. intros u I. right. exact I.
  - constructor; [rewrite E, nth_upd by lia; rewrite Nat.eqb_refl; left; reflexivity|]. eapply Forall_impl; [|apply IH; assumption]. intros u I. right. exact I.
  - constructor; [|constructor]. rewrite E, nth_upd by lia. rewrite Nat.eqb_refl. left. reflexivity.
Qed.
Lemma tree_differs ok p m vs : tree ok p m vs -> length m = 16%nat -> (p < 16)%nat -> wildcard (nth 15 m 0) -> Forall (fun v => t_mask v <> m) vs.
Proof.
  intros H. induction H as [m|p m E|p m vs Lp W T|p m vs Lp W T IH|m vs W T]; intros Lm Lq W15.
  - constructor.
  - constructor.
  - eapply Forall_impl; [|exact (branch_pos ok _ _ _ _ T Lm Lp)]. cbv beta. intros v I E. rewrite E in I. unfold DIGITS in I. cbn in I. unfold wildcard in W. intuition lia.
  - apply IH; [exact Lm|lia|exact W15].
  - contradiction.
Qed.
Lemma NoDup_app_intro {A} (l1 l2 : list A) : NoDup l1 -> NoDup l2 -> (forall x, In x l1 -> In x l2 -> False) -> NoDup (l1 ++ l2).
Proof.
  induction l1 as [|x l1 IH]; intros N1 N2 D; [exact N2|]. inversion_clear N1 as [|? ? N3 N4]. cbn. constructor.
  - intros I. apply in_app_or in I as [I|I]; [contradiction|]. apply (D x); [left; reflexivity|exact I].
  - apply IH; auto. intros y I1 I2. apply (D y); [right; exact I1|exact I2].
Qed.
Lemma tree_nodup ok : (forall p m vs, tree ok p m vs -> length m = 16%nat -> wildcard (nth 15 m 0) \/ p = 16%nat -> NoDup (map t_mask vs)) /\
  (forall p m cs vs, branch ok p m cs vs -> length m = 16%nat -> (p < 16)%nat -> wildcard (nth 15 m 0) -> NoDup cs -> NoDup (map t_mask vs)).
Proof.
  apply tree_branch.
  - constructor.
  - constructor.
  - intros p m vs Lp W _ IH Lm [W15|E]; [|lia]. apply IH; try assumption. unfold DIGITS. repeat constructor; cbn; intuition discriminate.
  - intros p m vs Lp W _ IH Lm [W15|E]; [|lia]. apply IH; auto.
  - intros m vs W _ IH Lm [W15|E]; [contradiction|lia].
  - constructor.
  - intros p m x cs v sub vs E R T IH1 Br IH2 Lm Lp W15 Nd. inversion_clear Nd as [|? ? N1 N2]. cbn [map]. rewrite map_app.
    pose proof (branch_pos ok _ _ _ _ Br Lm Lp) as Bp. rewrite Forall_forall in Bp.
    assert (Lu : length (upd m p x) = 16%nat) by (rewrite upd_length; exact Lm).
    assert (Sx : forall u, In u sub -> nth p (t_mask u) 0 = x).
    { intros u I. pose proof (proj1 (tree_finer ok) _ _ _ T Lu) as F. rewrite Forall_forall in F. destruct (F u I) as [_ F1]. destruct (F1 p) as [F2|(F2 & _)]; [|lia]. rewrite F2, nth_upd by lia. rewrite Nat.eqb_refl. reflexivity. }
    constructor.
    + intros I. apply in_app_or in I as [I|I]; apply in_map_iff in I as (u & Eu & Iu).
      * destruct (Nat.eq_dec p 15) as [->|Np]; [inversion T; subst; try lia; destruct Iu|].
        pose proof (tree_differs ok _ _ _ T Lu ltac:(lia)) as D. rewrite nth_upd in D by lia. destruct (Nat.eqb_spec 15 p); [lia|]. specialize (D W15). rewrite Forall_forall in D. apply (D u Iu). congruence.
      * apply N1. replace x with (nth p (t_mask u) 0); [apply Bp; exact Iu|]. rewrite Eu, E, nth_upd by lia. rewrite Nat.eqb_refl. reflexivity.
    + apply NoDup_app_intro.
      * apply IH1; [exact Lu|]. destruct (Nat.eq_dec p 15) as [->|Np]; [right; reflexivity|left]. rewrite nth_upd by lia. destruct (Nat.eqb_spec 15 p); [lia|exact W15].
      * apply IH2; assumption.
      * intros y I1 I2. apply in_map_iff in I1 as (u1 & E1 & I1). apply in_map_iff in I2 as (u2 & E2 & I2). apply N1. rewrite <- (Sx u1 I1), E1, <- E2. apply Bp. exact I2.
  - intros p m x cs v vs E R Br IH2 Lm Lp W15 Nd. inversion_clear Nd as [|? ? N1 N2]. cbn [map]. constructor; [|apply IH2; assumption].
    intros I. apply in_map_iff in I as (u & Eu & Iu). pose proof (branch_pos ok _ _ _ _ Br Lm Lp) as Bp. rewrite Forall_forall in Bp.
    apply N1. replace x with (nth p (t_mask u) 0); [apply Bp; exact Iu|]. rewrite Eu, E, nth_upd by lia. rewrite Nat.eqb_refl. reflexivity.
  - intros p m x cs v E R Lm Lp W15 Nd. cbn. constructor; [intros []|constructor].
Qed.

Section Probe.
  Variables (B : Type) (wret : B -> Z -> Z) (react : B -> list Z -> B * list ev) (c : watcher) (h : handle).
  Notation W := (world B).
  Definition plain (x : out (Z * list Z * W * list call)) : out (Z * list Z * W) := match x with Done (r, b, w, _) => Done (r, b, w) | Undef => Undef | Endless => Endless end.
  Lemma selected_plain buf (w : W) : plain (probe_selected_w B wret react c h buf w) = probe_selected B wret react h buf w.
  Proof.
    unfold probe_selected_w, probe_selected. destruct (mbus_send_request_frame B wret react (Some h) 0xFD w) as [[r w1]| |]; cbn [obind]; try reflexivity. destruct (r =? -1); [reflexivity|].
    destruct (mbus_recv_frame B (Some h) frame_zero w1) as [[[c1 f] w2]| |]; cbn [obind]; try reflexivity. destruct (c1 =? RECV_TIMEOUT); [reflexivity|].
    destruct (mbus_purge_frames B (Some h) w2) as [[p w3]| |]; cbn [obind]; try (destruct (c1 =? RECV_INVALID); reflexivity). destruct (c1 =? RECV_INVALID); [reflexivity|]. destruct (negb (p =? 0)); [reflexivity|].
    destruct (mbus_frame_type f =? T_LONG); [|reflexivity]. destruct (mbus_frame_get_secondary_address f) as [[a|]|]; cbn [lift obind]; try reflexivity. destruct (snprintf_s buf 0 17 a); reflexivity.
  Qed.
  Lemma loop_plain mask : forall n buf ret (w : W), plain (probe_loop_w B wret react c n h mask buf ret w) = probe_loop B wret react n h mask buf ret w.
  Proof.
    induction n as [|n IH]; intros buf ret w; cbn [probe_loop_w probe_loop]; [reflexivity|]. destruct (mbus_select_secondary_address B wret react (Some h) mask w) as [[r w1]| |]; cbn [obind]; try reflexivity.
    destruct (r =? PROBE_SINGLE); [apply selected_plain|]. destruct ((r =? PROBE_ERROR) || (r =? PROBE_COLLISION)); [reflexivity|]. apply IH.
  Qed.
  Lemma probe_plain mask buf (w : W) : plain (probe_w B wret react c (Some h) mask buf w) = mbus_probe_secondary_address B wret react (Some h) mask buf w.
  Proof. unfold probe_w, mbus_probe_secondary_address. destruct (negb _); [reflexivity|]. destruct (max_search_retry h <? 0); [reflexivity|]. apply loop_plain. Qed.

  Hypothesis RB : hands_bytes react.
  Hypothesis mode : hears_slaves h.
  Hypothesis retry : 0 <= max_search_retry h.
  (** The frame handed to found_event. *)
  Definition told (r : Z) (buf : list Z) (w w' : W) (l : list call) : Prop :=
    (r <> PROBE_SINGLE /\ l = []) \/
    (r = PROBE_SINGLE /\ exists f c0 a0 p0 new, l = (if found_event c then [OnFound f] else []) /\ denotes f (Long c0 a0 0x72 p0) /\ valid (Long c0 a0 0x72 p0) /\
      w_log w' = w_log w ++ new /\ In (Received RECV_OK (wire (Long c0 a0 0x72 p0))) new /\ address_text (firstn 8 p0) (c_text buf)).
  Lemma selected_told buf (w : W) r buf' w' l : (17 <= length buf)%nat -> ev_bytes (w_evs w) -> probe_selected_w B wret react c h buf w = Done (r, buf', w', l) -> told r buf' w w' l.
  Proof.
    intros Hl Hb H. unfold probe_selected_w in H. destruct (request_emits B wret react h 0xFD w ltac:(lia)) as (_ & r1 & E & _ & R). rewrite E in H. cbn [obind] in H. fold request in H.
    pose proof (wrote_bytes B react RB w (wire request) Hb) as Hb1. set (w1 := after_write react w (wire request)) in *. assert (Lg : w_log w1 = w_log w ++ [Sent (wire request)]) by reflexivity.
    destruct R as [->| ->]; [|injection H as <- _ _ <-; left; split; [discriminate|reflexivity]]. change (0 =? -1) with false in H. cbv iota in H.
    destruct (recv_total B h frame_zero w1 eq_refl Hb1) as (c1 & f' & e' & got & E1 & O1 & B1 & _ & _ & C1 & _ & K1 & _). rewrite E1 in H. cbn [obind] in H.
    pose proof (recv_fdata B h frame_zero w1 c1 f' _ eq_refl (repeat_bytes _) Hb1 E1) as Fb.
    set (w2 := mkW (w_bus w1) e' (w_log w1 ++ [Received c1 got])) in *.
    assert (L2 : w_log w2 = w_log w ++ [Sent (wire request); Received c1 got]) by (unfold w2; cbn [w_log]; rewrite Lg, <- app_assoc; reflexivity).
    destruct (Z.eqb_spec c1 RECV_TIMEOUT) as [Hc|Hc]; [injection H as <- _ _ <-; left; split; [discriminate|reflexivity]|].
    destruct (purge_any B h w2 B1) as (p & w3 & nw & P1 & P2 & P3 & P4 & P5). rewrite P1 in H. cbn [obind] in H.
    destruct (Z.eqb_spec c1 RECV_INVALID) as [Hi|Hi]; [injection H as <- _ _ <-; left; split; [discriminate|reflexivity]|].
    destruct (Z.eqb_spec p 0) as [Hp|Hp]; cbn [negb] in H; [|injection H as <- _ _ <-; left; split; [discriminate|reflexivity]].
    destruct (Z.eqb_spec (mbus_frame_type f') T_LONG) as [Tl|Tl]; [|injection H as <- _ _ <-; left; split; [discriminate|reflexivity]].
    destruct (mbus_frame_get_secondary_address f') as [[s|]|] eqn:Ea; cbn [lift obind] in H; [|injection H as <- _ _ <-; left; split; [discriminate|reflexivity]|discriminate].
    assert (Hok : c1 = RECV_OK).
    { destruct (Z.eq_dec c1 RECV_OK) as [X|X]; [assumption|]. exfalso. destruct (recv_other B h mode w1 c1 f' _ E1 X Hi) as [_ [Y|Y]]; [unfold mbus_frame_type in Tl; rewrite Y in Tl; discriminate|].
      unfold mbus_frame_get_secondary_address in Ea. destruct (negb _); [discriminate|]. unfold mbus_frame_data_parse in Ea. rewrite Y in Ea. discriminate. }
    destruct (proj1 K1 Hok) as (t1 & V1 & G1 & D1). destruct (address_any B wret f' t1 s O1 Fb D1 V1 Tl Ea) as (c0 & a0 & p0 & -> & M0 & L0 & Hx & A).
    unfold snprintf_s in H. rewrite firstn_all2 in H by (rewrite (proj1 Hx); lia). rewrite put_list_ok in H by (rewrite app_length, (proj1 Hx); cbn; lia). cbn [lift obind firstn app] in H.
    rewrite <- app_assoc in H. cbn [app] in H. injection H as <- <- <- <-. right. split; [reflexivity|]. exists f', c0, a0, p0, ([Sent (wire request); Received c1 got] ++ nw).
    split; [reflexivity|]. split; [exact D1|]. split; [exact V1|]. split; [rewrite P3, L2, app_assoc; reflexivity|]. split; [right; left; rewrite Hok, G1; reflexivity|]. rewrite c_text_hex by apply Hx. exact A.
  Qed.
  Lemma loop_told mask : wf_mask mask -> forall n buf ret (w : W) r buf' w' l, (17 <= length buf)%nat -> ret <> PROBE_SINGLE -> ev_bytes (w_evs w) -> probe_loop_w B wret react c n h mask buf ret w = Done (r, buf', w', l) -> told r buf' w w' l.
  Proof.
    intros Hm. induction n as [|n IH]; intros buf ret w r buf' w' l Hl Hr Hb H; cbn [probe_loop_w] in H; [injection H as <- _ _ <-; left; auto|].
    destruct (select_any B wret react h RB mode mask w Hm Hb) as (r1 & w1 & new & E & B1 & L1 & _). rewrite E in H. cbn [obind] in H.
    assert (T : forall r b w' l, told r b w1 w' l -> told r b w w' l).
    { intros r2 b w2 l2 [[X Y]|(X & f & c0 & a0 & p0 & nw & K1 & K2 & K3 & K4 & K5 & K6)]; [left; auto|]. right. split; [exact X|]. exists f, c0, a0, p0, (new ++ nw).
      do 3 (split; [assumption|]). split; [rewrite K4, L1, app_assoc; reflexivity|]. split; [apply in_or_app; right; exact K5|exact K6]. }
    destruct (Z.eqb_spec r1 PROBE_SINGLE) as [->|N1]; [apply T; exact (selected_told _ _ _ _ _ _ Hl B1 H)|]. destruct ((r1 =? PROBE_ERROR) || (r1 =? PROBE_COLLISION)); [injection H as <- _ _ <-; left; auto|].
    apply T. exact (IH _ _ _ _ _ _ _ Hl N1 B1 H).
  Qed.
  Lemma probe_visit mask (w : W) r buf' w' l : wf_mask mask -> ev_bytes (w_evs w) -> probe_w B wret react c (Some h) mask (repeat 0 17) w = Done (r, buf', w', l) ->
    exists v, t_mask v = mask /\ t_result v = r /\ In r probe_codes /\ ev_bytes (w_evs w') /\ mbus_probe_secondary_address B wret react (Some h) mask (repeat 0 17) w = Done (r, buf', w') /\
      w_log w' = w_log w ++ t_traffic v /\ reports (t_traffic v) = [] /\ t_addr v = c_text buf' /\ (r = PROBE_SINGLE -> answered v) /\
      (if scan_progress c then [OnProgress mask] else []) ++ l ++ (if r =? PROBE_SINGLE then if found_event c then [] else [Printed (c_text buf') mask] else []) = calls_of c v.
  Proof.
    intros Hm Hb H. assert (P := probe_plain mask (repeat 0 17) w). rewrite H in P. cbn [plain] in P.
    destruct (probe_any B wret react h RB mode retry mask (repeat 0 17) w Hm ltac:(rewrite repeat_length; lia) Hb) as [U|(r1 & b1 & w1 & new & E & _ & B1 & L1 & C1 & _ & R1 & _)]; [congruence|].
    rewrite E in P. injection P as -> -> ->.
    assert (T : told r1 b1 w w1 l).
    { unfold probe_w in H. replace (length mask =? 16)%nat with true in H by (symmetry; apply Nat.eqb_eq, Hm). cbn [negb] in H. destruct (Z.ltb_spec (max_search_retry h) 0); [lia|].
      exact (loop_told mask Hm _ (repeat 0 17) 0 _ _ _ _ _ (le_n 17) ltac:(discriminate) Hb H). }
    destruct T as [[X ->]|(-> & f & c0 & a0 & p0 & nw & -> & K2 & K3 & K4 & K5 & K6)].
    - exists (mkVisit mask r1 new (c_text b1) None). cbn [t_mask t_result t_traffic t_addr t_frame]. do 2 (split; [reflexivity|]). split; [exact C1|]. split; [exact B1|]. split; [exact E|]. split; [exact L1|]. split; [exact R1|]. split; [reflexivity|].
      split; [contradiction|]. unfold calls_of. cbn [t_mask t_result t_frame t_addr]. destruct (Z.eqb_spec r1 PROBE_SINGLE); [contradiction|]. reflexivity.
    - exists (mkVisit mask PROBE_SINGLE nw (c_text b1) (Some f)). cbn [t_mask t_result t_traffic t_addr t_frame]. do 2 (split; [reflexivity|]). split; [exact C1|]. split; [exact B1|]. split; [exact E|]. split; [exact K4|]. split; [rewrite K4 in L1; apply app_inv_head in L1; rewrite L1; exact R1|]. split; [reflexivity|].
      split; [intros _; exists f, c0, a0, p0; auto|]. unfold calls_of. cbn [t_mask t_result t_frame t_addr]. rewrite Z.eqb_refl. destruct (found_event c); [rewrite app_nil_r|]; reflexivity.
  Qed.
End Probe.

(** ** The whole scan *)
Section Walk.
  Variables (B : Type) (wret : B -> Z -> Z) (react : B -> list Z -> B * list ev) (c : watcher) (h : handle).
  Notation W := (world B).
  Lemma visits_app (w : W) vs w1 us w2 : visits wret react h w vs w1 -> visits wret react h w1 us w2 -> visits wret react h w (vs ++ us) w2.
  Proof. intros H. induction H; intros U; [exact U|]. cbn [app]. econstructor; try eassumption. apply IHvisits. exact U. Qed.

  Hypothesis RB : hands_bytes react.
  Hypothesis mode : hears_slaves h.
  Hypothesis retry : 0 <= max_search_retry h.
  (** What a call has done: the probes, what they looked like from outside, and the copies of masks that were not released. *)
  Definition walked (Q : bool -> list visit -> Prop) (k : nat) (m0 : mem) (s : list nat) (w : W) (m : mem) (w' : W) (m' : mem) (l : list call) : Prop :=
    exists vs used leak, visits wret react h w vs w' /\ ev_bytes (w_evs w') /\ l = flat_map (calls_of c) vs /\
      (forall ok, (ok = true -> ~ In true used) -> Q ok vs) /\ attempts used m m' /\ added (leak ++ s) m0 m' /\ (length leak + k = length (filter failed vs))%nat.
  Lemma failed_code v : In (t_result v) probe_codes -> t_result v <> PROBE_SINGLE -> t_result v <> PROBE_COLLISION -> t_result v <> PROBE_NOTHING -> failed v = true.
  Proof. unfold failed, probe_codes. cbn. intros I N1 N2 N3. apply Z.eqb_eq. intuition congruence. Qed.
  Lemma digits_walk deeper p s : wf_mask s ->
    (forall x w m r w' m' l m0 st, wf_mask x -> ev_bytes (w_evs w) -> added st m0 m -> deeper x (w, m) = Done (r, (w', m'), l) -> walked (fun ok vs => tree ok (S p) x vs) 0 m0 st w m w' m' l) ->
    forall cs, (forall x, In x cs -> wf_mask (upd s p x)) ->
    forall mk w m r w' m' l m0 st, (forall x, upd mk p x = upd s p x) -> ev_bytes (w_evs w) -> added st m0 m -> scan_digits_w B wret react c deeper h mk p cs (w, m) = Done (r, (w', m'), l) ->
    (r = 0 \/ r = -1) /\ walked (fun ok vs => branch ok p s cs vs) (if r =? 0 then 0 else 1) m0 st w m w' m' l.
  Proof.
    intros Hs Dp. induction cs as [|x cs IH]; intros Hcs mk w m r w' m' l m0 st Hm Hb A H; cbn [scan_digits_w fst snd] in H.
    - injection H as <- <- <- <-. split; [left; reflexivity|]. exists [], [], []. split; [constructor|]. split; [exact Hb|]. split; [reflexivity|]. split; [intros; constructor|]. split; [reflexivity|]. split; [exact A|reflexivity].
    - assert (Hx : wf_mask (upd s p x)) by (apply Hcs; left; reflexivity). rewrite (Hm x) in H.
      assert (Hm' : forall y, upd (upd s p x) p y = upd s p y) by (intros; apply upd_upd).
      specialize (IH (fun y I => Hcs y (or_intror I))).
      destruct (probe_w B wret react c (Some h) (upd s p x) (repeat 0 17) w) as [[[[r1 buf] w1] l1]| |] eqn:E1; cbn [obind] in H; try discriminate.
      destruct (probe_visit B wret react c h RB mode retry _ _ _ _ _ _ Hx Hb E1) as (v & V1 & V2 & V3 & V4 & V5 & V6 & V6r & V7 & V8 & V9).
      assert (Vis : forall us w2, visits wret react h (if r1 =? PROBE_SINGLE then log w1 (Found (t_addr v)) else w1) us w2 -> visits wret react h w (v :: us) w2).
      { intros us w2 U. eapply visits_cons with (w1 := w1); [rewrite V1, V2; exact V5|exact V6|exact V6r|rewrite V2; exact V8|rewrite V2; exact U]. }
      destruct (Z.eqb_spec r1 PROBE_SINGLE) as [->|N1].
      { destruct (scan_digits_w B wret react c deeper h (upd s p x) p cs (log w1 (Found (c_text buf)), m)) as [[[r2 [w2 m2]] l2]| |] eqn:E2; cbn [obind] in H; try discriminate. injection H as <- <- <- <-.
        destruct (IH (upd s p x) (log w1 (Found (c_text buf))) m _ _ _ _ m0 st Hm' V4 A E2) as (Rr & vs & used & leak & K1 & K2 & K3 & K4 & K5 & K6 & K7). split; [exact Rr|]. exists (v :: vs), used, leak. split; [apply Vis; rewrite V7; exact K1|]. split; [exact K2|].
        split; [cbn [flat_map]; rewrite <- V9, K3; cbn [Z.eqb]; rewrite <- !app_assoc; reflexivity|]. split; [intros ok O; apply branch_next; [exact V1|left; exact V2|apply K4; exact O]|]. split; [exact K5|]. split; [exact K6|].
        assert (Fv : failed v = false) by (unfold failed; rewrite V2; reflexivity). cbn [filter]. rewrite Fv. exact K7. }
      assert (V9' : (if scan_progress c then [OnProgress (upd s p x)] else []) ++ l1 = calls_of c v). { rewrite <- V9, app_nil_r. reflexivity. } clear V9.
      destruct (Z.eqb_spec r1 PROBE_COLLISION) as [->|N2].
      { destruct (deeper (upd s p x) (w1, m)) as [[[r2 [w2 m2]] l2]| |] eqn:E2; cbn [obind] in H; try discriminate.
        destruct (scan_digits_w B wret react c deeper h (upd s p x) p cs (w2, m2)) as [[[r3 [w3 m3]] l3]| |] eqn:E3; cbn [obind] in H; try discriminate. injection H as <- <- <- <-.
        destruct (Dp _ _ _ _ _ _ _ m0 st Hx V4 A E2) as (vs & used & leak & K1 & K2 & K3 & K4 & K5 & K6 & K7).
        destruct (IH _ _ _ _ _ _ _ m0 (leak ++ st) Hm' K2 K6 E3) as (Rr & vs' & used' & leak' & J1 & J2 & J3 & J4 & J5 & J6 & J7). split; [exact Rr|]. exists (v :: vs ++ vs'), (used ++ used'), (leak' ++ leak).
        split; [apply Vis; eapply visits_app; eassumption|]. split; [exact J2|]. split; [cbn [flat_map]; rewrite flat_map_app, <- V9', K3, J3, <- !app_assoc; reflexivity|].
        split; [intros ok O; apply branch_coll; [exact V1|exact V2|apply K4|apply J4]; intros Y; specialize (O Y); rewrite in_app_iff in O; tauto|].
        split; [eapply attempts_trans; eassumption|]. split; [rewrite <- app_assoc; exact J6|]. assert (Fv : failed v = false) by (unfold failed; rewrite V2; reflexivity). cbn [filter]. rewrite Fv, filter_app, !app_length. lia. }
      destruct (Z.eqb_spec r1 PROBE_NOTHING) as [->|N3].
      { destruct (scan_digits_w B wret react c deeper h (upd s p x) p cs (w1, m)) as [[[r2 [w2 m2]] l2]| |] eqn:E2; cbn [obind] in H; try discriminate. injection H as <- <- <- <-.
        destruct (IH _ _ _ _ _ _ _ m0 st Hm' V4 A E2) as (Rr & vs & used & leak & K1 & K2 & K3 & K4 & K5 & K6 & K7). split; [exact Rr|]. exists (v :: vs), used, leak. split; [apply Vis; exact K1|]. split; [exact K2|].
        split; [cbn [flat_map]; rewrite <- V9', K3, <- !app_assoc; reflexivity|]. split; [intros ok O; apply branch_next; [exact V1|right; exact V2|apply K4; exact O]|]. split; [exact K5|]. split; [exact K6|].
        assert (Fv : failed v = false) by (unfold failed; rewrite V2; reflexivity). cbn [filter]. rewrite Fv. exact K7. }
      injection H as <- <- <- <-. split; [right; reflexivity|]. exists [v], [], []. assert (F : failed v = true) by (apply failed_code; rewrite V2; assumption).
      split; [apply Vis; constructor|]. split; [exact V4|]. split; [cbn [flat_map]; rewrite app_nil_r; exact (eq_sym (eq_sym V9'))|]. split; [intros ok _; apply branch_error; assumption|]. split; [reflexivity|]. split; [exact A|].
      cbn [filter]. rewrite F. reflexivity.
  Qed.
  Lemma scan_walk : forall n mask w m r w' m' l m0 st, (n <= 16)%nat -> wf_mask mask -> ev_bytes (w_evs w) -> added st m0 m -> scan_from_w B wret react c n h mask (w, m) = Done (r, (w', m'), l) ->
    (r = 0 \/ r = -1) /\ walked (fun ok vs => tree ok (16 - n) mask vs /\ (r = -1 -> ok = true -> filter failed vs <> [])) 0 m0 st w m w' m' l.
  Proof.
    induction n as [|n IH]; intros mask w m r w' m' l m0 st Hn Hm Hb A H; cbn [scan_from_w fst snd] in H; (replace (length mask =? 16)%nat with true in H by (symmetry; apply Nat.eqb_eq, Hm)); cbn [negb] in H.
    - injection H as <- <- <- <-. split; [left; reflexivity|]. exists [], [], []. split; [constructor|]. split; [exact Hb|]. split; [reflexivity|]. split; [intros; split; [constructor|discriminate]|]. split; [reflexivity|]. split; [exact A|reflexivity].
    - destruct (malloc CBlock m) as [[a|] m1] eqn:E; destruct (malloc_added _ _ _ _ _ _ E A) as [A1 _]; destruct (malloc_attempts _ _ _ _ E) as (u1 & U1 & X1).
      2:{ injection H as <- <- <- <-. split; [right; reflexivity|]. exists [], u1, []. split; [constructor|]. split; [exact Hb|]. split; [reflexivity|]. split; [|split; [exact U1|split; [exact A1|reflexivity]]].
          intros [|] O; [|split; [apply tree_lost; reflexivity|discriminate]]. exfalso. apply (O eq_refl). apply X1. reflexivity. }
      set (p := (16 - S n)%nat) in *. assert (Sp : (16 - n = S p)%nat) by (unfold p; lia). assert (L16 : length mask = 16%nat) by apply Hm.
      assert (Fin : forall (y : out (Z * (W * mem) * list call)) Q,
        (forall r w' m' l, y = Done (r, (w', m'), l) -> (r = 0 \/ r = -1) /\ walked Q (if r =? 0 then 0 else 1) m0 (a :: st) w m1 w' m' l) ->
        (forall ok vs, Q ok vs -> tree ok p mask vs) ->
        (do (r, s, l) <- y ;; if r =? 0 then do m <- lift (free (Some a) (snd s)) ;; Done (0, (fst s, m), l) else Done (r, s, l)) = Done (r, (w', m'), l) ->
        (r = 0 \/ r = -1) /\ walked (fun ok vs => tree ok p mask vs /\ (r = -1 -> ok = true -> filter failed vs <> [])) 0 m0 st w m w' m' l).
      { intros y Q Hy HQ Hd. destruct y as [[[r2 [w2 m2]] l2]| |]; cbn [obind] in Hd; try discriminate. destruct (Hy _ _ _ _ eq_refl) as (Rr & vs & used & leak & K1 & K2 & K3 & K4 & K5 & K6 & K7).
        assert (KT : forall ok, (ok = true -> ~ In true (u1 ++ used)) -> tree ok p mask vs). { intros ok O. apply HQ, K4. intros Y I. apply (O Y). rewrite in_app_iff. auto. }
        destruct Rr as [->| ->]; cbn [Z.eqb fst snd] in Hd, K7.
        - destruct (free_added a (leak ++ st) m0 m2) as (m3 & F & A3 & F3). { eapply added_perm; [|exact K6]. apply Permutation_sym, Permutation_middle. }
          rewrite F in Hd. cbn [lift obind] in Hd. injection Hd as <- <- <- <-. split; [left; reflexivity|]. exists vs, (u1 ++ used), leak. split; [exact K1|]. split; [exact K2|]. split; [exact K3|]. split; [intros ok O; split; [apply KT, O|discriminate]|].
          split; [unfold attempts in *; rewrite U1, K5, F3, app_assoc; reflexivity|]. split; [exact A3|exact K7].
        - injection Hd as <- <- <- <-. split; [right; reflexivity|]. exists vs, (u1 ++ used), (leak ++ [a]). split; [exact K1|]. split; [exact K2|]. split; [exact K3|]. split; [intros ok O; split; [apply KT, O|intros _ _ X; rewrite X in K7; cbn [length] in K7; lia]|].
          split; [eapply attempts_trans; eassumption|]. split; [rewrite <- app_assoc; exact K6|]. rewrite app_length. cbn [length]. lia. }
      destruct ((nth p mask 0 =? 102) || (nth p mask 0 =? 70)) eqn:Wc.
      + assert (Ww : wildcard (nth p mask 0)) by (unfold wildcard; lia). revert H. apply Fin with (Q := fun ok vs => branch ok p mask DIGITS vs).
        * intros r2 w2 m2 l2 E2. eapply digits_walk; [exact Hm| | |reflexivity|exact Hb|exact A1|exact E2].
          -- intros x w3 m3 r3 w4 m4 l3 m5 st' Hx Hb3 A3 E3. destruct (IH x w3 m3 r3 w4 m4 l3 m5 st' ltac:(lia) Hx Hb3 A3 E3) as [_ (vs & used & leak & K1 & K2 & K3 & K4 & K)]. rewrite Sp in K4. exists vs, used, leak. repeat (split; [assumption|]). split; [intros ok O; apply K4; exact O|exact K].
          -- intros x I. apply upd_mask; [exact Hm|]. unfold PBus3.digit. cbn in I. intuition lia.
        * intros ok vs Br. apply tree_wild; [unfold p; lia|exact Ww|exact Br].
      + assert (Ww : ~ wildcard (nth p mask 0)) by (unfold wildcard; lia). destruct (Nat.ltb_spec p 15) as [Q|Q].
        * revert H. apply Fin with (Q := fun ok vs => tree ok (S p) mask vs).
          -- intros r2 w2 m2 l2 E2. destruct (scan_from_w B wret react c n h mask (w, m1)) as [[[r3 [w3 m3]] l3]| |] eqn:E3; cbn [obind] in E2; try discriminate. injection E2 as <- <- <- <-. split; [left; reflexivity|].
             destruct (IH mask w m1 r3 w3 m3 l3 m0 (a :: st) ltac:(lia) Hm Hb A1 E3) as [_ (vs & used & leak & K1 & K2 & K3 & K4 & K)]. rewrite Sp in K4. exists vs, used, leak. repeat (split; [assumption|]). split; [intros ok O; apply K4; exact O|exact K].
          -- intros ok vs T. apply tree_skip; assumption.
        * assert (p = 15%nat) by (unfold p in *; lia). revert H. apply Fin with (Q := fun ok vs => branch ok p mask [nth p mask 0] vs).
          -- intros r2 w2 m2 l2 E2. eapply digits_walk; [exact Hm| | |reflexivity|exact Hb|exact A1|exact E2].
             ++ intros x w3 m3 r3 w4 m4 l3 m5 st' Hx Hb3 A3 E3. destruct (IH x w3 m3 r3 w4 m4 l3 m5 st' ltac:(lia) Hx Hb3 A3 E3) as [_ (vs & used & leak & K1 & K2 & K3 & K4 & K)]. rewrite Sp in K4. exists vs, used, leak. repeat (split; [assumption|]). split; [intros ok O; apply K4; exact O|exact K].
             ++ intros x [<-|[]]. rewrite upd_same by lia. exact Hm.
          -- intros ok vs Br. clearbody p. subst p. apply tree_last; assumption.
  Qed.
End Walk.

(** ** The callbacks do not change the scan *)
Section Same.
  Variables (B : Type) (wret : B -> Z -> Z) (react : B -> list Z -> B * list ev) (c : watcher) (h : handle).
  Notation W := (world B).
  Definition alike (m0 : mem) (st : list nat) (x : out (Z * (W * mem) * list call)) (y : out (Z * W)) : Prop :=
    match x, y with
    | Done (r, (w, m), _), Done (r', w') => r = r' /\ w = w' /\ plenty m /\ exists leak, added (leak ++ st) m0 m
    | Undef, Undef | Endless, Endless => True
    | _, _ => False
    end.
  Lemma alike_done m0 st x y : alike m0 st x y ->
    (exists r w m l leak, x = Done (r, (w, m), l) /\ y = Done (r, w) /\ plenty m /\ added (leak ++ st) m0 m) \/ (x = Undef /\ y = Undef) \/ (x = Endless /\ y = Endless).
  Proof.
    destruct x as [[[r [w m]] l]| |], y as [[r' w']| |]; cbn; try tauto. intros (-> & -> & P & leak & A). left. exists r', w', m, l, leak. auto.
  Qed.
  Lemma alike_more m0 st leak x y : alike m0 (leak ++ st) x y -> alike m0 st x y.
  Proof.
    destruct x as [[[r [w m]] l]| |], y as [[r' w']| |]; cbn; try tauto. intros (-> & -> & P & lk & A). repeat (split; [first [reflexivity|assumption]|]). exists (lk ++ leak). rewrite <- app_assoc. exact A.
  Qed.
  Lemma digits_same deeper deeper' p : (forall x w m m0 st, plenty m -> added st m0 m -> alike m0 st (deeper x (w, m)) (deeper' x w)) ->
    forall cs mk w m m0 st, plenty m -> added st m0 m -> alike m0 st (scan_digits_w B wret react c deeper h mk p cs (w, m)) (scan_digits B wret react deeper' h mk p cs w).
  Proof.
    intros Dp. induction cs as [|x cs IH]; intros mk w m m0 st P A; cbn [scan_digits_w scan_digits fst snd].
    - cbn. repeat (split; [first [reflexivity|assumption]|]). exists []. exact A.
    - rewrite <- (probe_plain B wret react c h). destruct (probe_w B wret react c (Some h) (upd mk p x) (repeat 0 17) w) as [[[[r1 buf] w1] l1]| |]; cbn [obind plain]; try exact I.
      destruct (r1 =? PROBE_SINGLE).
      { destruct (alike_done _ _ _ _ (IH (upd mk p x) (log w1 (Found (c_text buf))) m m0 st P A)) as [(r & w2 & m2 & l2 & leak & E1 & E2 & P2 & A2)|[[E1 E2]|[E1 E2]]]; rewrite E1, E2; cbn [obind]; try exact I.
        cbn. repeat (split; [first [reflexivity|assumption]|]). exists leak. exact A2. }
      destruct (r1 =? PROBE_COLLISION).
      { destruct (alike_done _ _ _ _ (Dp (upd mk p x) w1 m m0 st P A)) as [(r & w2 & m2 & l2 & leak & E1 & E2 & P2 & A2)|[[E1 E2]|[E1 E2]]]; rewrite E1, E2; cbn [obind]; try exact I.
        destruct (alike_done _ _ _ _ (IH (upd mk p x) w2 m2 m0 (leak ++ st) P2 A2)) as [(r' & w3 & m3 & l3 & leak' & E3 & E4 & P3 & A3)|[[E3 E4]|[E3 E4]]]; rewrite E3, E4; cbn [obind]; try exact I.
        cbn. repeat (split; [first [reflexivity|assumption]|]). exists (leak' ++ leak). rewrite <- app_assoc. exact A3. }
      destruct (r1 =? PROBE_NOTHING).
      { destruct (alike_done _ _ _ _ (IH (upd mk p x) w1 m m0 st P A)) as [(r & w2 & m2 & l2 & leak & E1 & E2 & P2 & A2)|[[E1 E2]|[E1 E2]]]; rewrite E1, E2; cbn [obind]; try exact I.
        cbn. repeat (split; [first [reflexivity|assumption]|]). exists leak. exact A2. }
      cbn. repeat (split; [first [reflexivity|assumption]|]). exists []. exact A.
  Qed.
  Lemma scan_same : forall n mask w m m0 st, plenty m -> added st m0 m -> alike m0 st (scan_from_w B wret react c n h mask (w, m)) (scan_from B wret react n h mask w).
  Proof.
    induction n as [|n IH]; intros mask w m m0 st P A; cbn [scan_from_w scan_from fst snd]; destruct (negb _).
    1-3: cbn; repeat (split; [first [reflexivity|assumption]|]); exists []; exact A.
    destruct (malloc CBlock m) as [[a|] m1] eqn:E.
    2:{ exfalso. destruct (malloc_cases CBlock m) as [(x & E1 & _ & F)|(x & E1 & _)]; rewrite E1 in E; [|discriminate]. apply P. rewrite F. left. reflexivity. }
    assert (P1 : plenty m1).
    { destruct (malloc_cases CBlock m) as [(x & E1 & _ & F)|(x & E1 & _ & _ & _ & F)]; rewrite E1 in E; injection E as _ <-; [intros I; apply P; rewrite F; right; exact I|]. destruct F as [F|[F1 F2]]; intros I; apply P; [rewrite F; right; exact I|rewrite F2 in I; destruct I]. }
    destruct (malloc_added _ _ _ _ _ _ E A) as [A1 _]. cbv zeta. set (p := (16 - S n)%nat).
    set (y := if (nth p mask 0 =? 102) || (nth p mask 0 =? 70) then scan_digits B wret react (scan_from B wret react n h) h mask p [48; 49; 50; 51; 52; 53; 54; 55; 56; 57] w
      else if (p <? 15)%nat then (do (_, w) <- scan_from B wret react n h mask w ;; Done (0, w)) else scan_digits B wret react (scan_from B wret react n h) h mask p [nth p mask 0] w).
    match goal with |- alike _ _ (obind ?X _) _ => set (x := X) end.
    assert (H : alike m0 (a :: st) x y).
    { unfold x, y. destruct (_ || _); [apply digits_same; assumption|]. destruct (p <? 15)%nat; [|apply digits_same; assumption].
      destruct (alike_done _ _ _ _ (IH mask w m1 m0 (a :: st) P1 A1)) as [(r & w2 & m2 & l2 & leak & E1 & E2 & P2 & A2)|[[E1 E2]|[E1 E2]]]; rewrite E1, E2; cbn [obind]; try exact I.
      cbn. repeat (split; [first [reflexivity|assumption]|]). exists leak. exact A2. }
    clearbody x y. destruct (alike_done _ _ _ _ H) as [(r & w2 & m2 & l2 & leak & E1 & E2 & P2 & A2)|[[E1 E2]|[E1 E2]]]; rewrite E1, E2; cbn [obind]; try exact I.
    destruct (Z.eqb_spec r 0) as [->|N].
    - cbn [fst snd]. destruct (free_added a (leak ++ st) m0 m2) as (m3 & F & A3 & F3). { eapply added_perm; [|exact A2]. apply Permutation_sym, Permutation_middle. }
      rewrite F. cbn. split; [reflexivity|]. split; [reflexivity|]. split; [unfold plenty in *; rewrite F3; exact P2|]. exists leak. exact A3.
    - cbn. split; [reflexivity|]. split; [reflexivity|]. split; [exact P2|]. exists (leak ++ [a]). rewrite <- app_assoc. exact A2.
  Qed.
End Same.
