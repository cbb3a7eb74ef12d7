(** Proofs: an XML text has one reading. *)
From Coq Require Import String.
From Coq Require Import List.
From Verif Require Import CBase PBase CStr MFrame MCodec MVar MText SText SCodec SVar SXml SDoc PCodec PCodec2.
Local Open Scope Z_scope.

Lemma safe_no c e : safe_text e -> c = 60 \/ c = 34 \/ c = 62 -> ~ In c e.
Proof. intros S H. induction S; cbn; intros I; repeat (destruct I as [I|I]; [lia|]); auto. Qed.
Lemma blanks_no ws : blanks ws -> forall c, In c ws -> c = 32 \/ c = 10.
Proof. intros H c I. unfold blanks in H. rewrite Forall_forall in H. auto. Qed.

(** Splitting at the first character of a kind. *)
Lemma split_at (P : Z -> bool) : forall a1 a2 c1 c2 r1 r2, (forall c, In c a1 -> P c = false) -> (forall c, In c a2 -> P c = false) ->
  P c1 = true -> P c2 = true -> a1 ++ c1 :: r1 = a2 ++ c2 :: r2 -> a1 = a2 /\ c1 = c2 /\ r1 = r2.
Proof.
  induction a1 as [|x a1 IH]; intros [|y a2] c1 c2 r1 r2 H1 H2 P1 P2 E; cbn [app] in E; injection E as -> E.
  - auto.
  - rewrite (H2 y (or_introl eq_refl)) in P1. discriminate.
  - rewrite (H1 c2 (or_introl eq_refl)) in P2. discriminate.
  - destruct (IH a2 c1 c2 r1 r2) as (-> & -> & ->); auto.
    + intros c I. apply H1. right. exact I.
    + intros c I. apply H2. right. exact I.
Qed.
Definition nonletter (c : Z) : bool := negb (((65 <=? c) && (c <=? 90)) || ((97 <=? c) && (c <=? 122))).
Lemma name_letters n : name_ok n -> forall c, In c n -> nonletter c = false.
Proof. intros [_ H] c I. rewrite Forall_forall in H. specialize (H c I). unfold nonletter. lia. Qed.
Lemma name_split n1 n2 c1 c2 r1 r2 : name_ok n1 -> name_ok n2 -> nonletter c1 = true -> nonletter c2 = true ->
  n1 ++ c1 :: r1 = n2 ++ c2 :: r2 -> n1 = n2 /\ c1 = c2 /\ r1 = r2.
Proof. intros N1 N2. apply (split_at nonletter); [exact (name_letters n1 N1)|exact (name_letters n2 N2)]. Qed.

Lemma attrs_split : forall as1 as2 r1 r2,
  Forall (fun nv => name_ok (fst nv) /\ safe_text (snd nv)) as1 -> Forall (fun nv => name_ok (fst nv) /\ safe_text (snd nv)) as2 ->
  attrs_text as1 ++ 62 :: r1 = attrs_text as2 ++ 62 :: r2 -> as1 = as2 /\ r1 = r2.
Proof.
  assert (X : forall n v as' r, attrs_text ((n, v) :: as') ++ r = 32 :: n ++ 61 :: 34 :: v ++ 34 :: attrs_text as' ++ r).
  { intros n v as' r. unfold attrs_text. cbn [flat_map fst snd app]. rewrite <- ?app_assoc. cbn [app]. rewrite <- ?app_assoc. reflexivity. }
  induction as1 as [|[n1 v1] as1 IH]; intros [|[n2 v2] as2] r1 r2 F1 F2 E.
  - cbn in E. injection E as ->. auto.
  - rewrite X in E. cbn in E. discriminate.
  - rewrite X in E. cbn in E. discriminate.
  - rewrite !X in E. inversion F1 as [|? ? [N1 V1] F1']; inversion F2 as [|? ? [N2 V2] F2']; subst. cbn [fst snd] in *. injection E as E.
    destruct (name_split _ _ 61 61 _ _ N1 N2 eq_refl eq_refl E) as (-> & _ & E2). injection E2 as E2.
    destruct (split_at (fun c => c =? 34) v1 v2 34 34 (attrs_text as1 ++ 62 :: r1) (attrs_text as2 ++ 62 :: r2)) as (-> & _ & E3); try reflexivity; try exact E2.
    { intros c I. apply Z.eqb_neq. intros ->. exact (safe_no 34 _ V1 ltac:(auto) I). }
    { intros c I. apply Z.eqb_neq. intros ->. exact (safe_no 34 _ V2 ltac:(auto) I). }
    destruct (IH as2 r1 r2 F1' F2' E3) as [-> ->]. auto.
Qed.

(** What may follow the elements of a document: nothing, or an end tag. *)
Definition closes (r : list Z) : Prop := r = [] \/ exists r', r = 60 :: 47 :: r'.
Lemma first_letter n : name_ok n -> exists c n', n = c :: n' /\ nonletter c = false.
Proof. intros N. destruct n as [|c n']; [destruct N; contradiction|]. exists c, n'. split; [reflexivity|]. apply (name_letters _ N). left. reflexivity. Qed.

(** Blanks before a tag. *)
Lemma blanks_split ws1 ws2 r1 r2 : blanks ws1 -> blanks ws2 -> ws1 ++ 60 :: r1 = ws2 ++ 60 :: r2 -> ws1 = ws2 /\ r1 = r2.
Proof.
  intros B1 B2 E. destruct (split_at (fun c => c =? 60) ws1 ws2 60 60 r1 r2) as (A & _ & B); auto.
  - intros c I. apply Z.eqb_neq. intros ->. destruct (blanks_no _ B1 _ I); discriminate.
  - intros c I. apply Z.eqb_neq. intros ->. destruct (blanks_no _ B2 _ I); discriminate.
Qed.
Lemma blanks_end ws1 ws2 r1 r2 : blanks ws1 -> blanks ws2 -> closes r1 -> ws1 ++ r1 = ws2 ++ 60 :: r2 -> ws1 = ws2 /\ exists r', r2 = 47 :: r'.
Proof.
  intros B1 B2 [->|(r' & ->)] E.
  - rewrite app_nil_r in E. exfalso. assert (I : In 60 ws1) by (rewrite E; apply in_app_iff; right; left; reflexivity).
    destruct (blanks_no _ B1 _ I); discriminate.
  - destruct (blanks_split ws1 ws2 _ _ B1 B2 E) as [-> <-]. eauto.
Qed.

Lemma solid_children name attrs ns : solid (Elem name attrs ns) -> ns <> [] /\ Forall solid ns.
Proof. intros [H A]. split; [exact H|]. clear H. induction ns as [|n ns IH]; [constructor|]. destruct A as [A1 A2]. constructor; auto. Qed.

(** A rendered list of elements that is not empty starts, after blanks, with a start tag. *)
Lemma renders_first l ns : renders l ns -> ns <> [] -> exists ws c r, blanks ws /\ nonletter c = false /\ l = ws ++ 60 :: c :: r.
Proof.
  intros R N. destruct R as [|ws name e t rest ns B No|ws name attrs inner ch rest ns B No]; [contradiction| |];
    destruct (first_letter name No) as (c & n' & -> & L); exists ws, c; eexists; (split; [exact B|]); (split; [exact L|]); cbn [app]; reflexivity.
Qed.
Lemma leaf_not_elem e inner r1 r2 ns : safe_text e -> renders inner ns -> ns <> [] -> e ++ 60 :: 47 :: r1 = inner ++ r2 -> False.
Proof.
  intros S R N E. destruct (renders_first inner ns R N) as (ws & c & r & B & L & ->). rewrite <- app_assoc in E. cbn [app] in E.
  destruct (split_at (fun c => c =? 60) e ws 60 60 (47 :: r1) (c :: r ++ r2)) as (_ & _ & X); auto.
  - intros x I. apply Z.eqb_neq. intros ->. exact (safe_no 60 _ S ltac:(auto) I).
  - intros x I. apply Z.eqb_neq. intros ->. destruct (blanks_no _ B _ I); discriminate.
  - injection X as <- _. discriminate.
Qed.

Theorem renders_once : forall l1 ns1, renders l1 ns1 -> Forall solid ns1 -> forall l2 ns2 x1 x2, renders l2 ns2 -> Forall solid ns2 ->
  closes x1 -> closes x2 -> l1 ++ x1 = l2 ++ x2 -> ns1 = ns2 /\ l1 = l2.
Proof.
  induction 1 as [ws1 B1|ws1 name1 e1 t1 rest1 ns1 B1 N1 S1 U1 R1 IH1|ws1 name1 as1 inner1 ch1 rest1 ns1 B1 N1 A1 RI1 IHI1 R1 IH1];
    intros F1 l2 ns2 x1 x2 R2 F2 C1 C2 E.
  - destruct R2 as [ws2 B2|ws2 name2 e2 t2 rest2 ns2 B2 N2 S2 U2 R2|ws2 name2 as2 inner2 ch2 rest2 ns2 B2 N2 A2 RI2 R2].
    + split; [reflexivity|]. destruct C1 as [->|(r1 & ->)], C2 as [->|(r2 & ->)]; rewrite ?app_nil_r in E.
      * exact E.
      * exfalso. assert (I : In 60 ws1) by (rewrite E; apply in_app_iff; right; left; reflexivity). destruct (blanks_no _ B1 _ I); discriminate.
      * exfalso. assert (I : In 60 ws2) by (rewrite <- E; apply in_app_iff; right; left; reflexivity). destruct (blanks_no _ B2 _ I); discriminate.
      * exact (proj1 (blanks_split _ _ _ _ B1 B2 E)).
    + exfalso. destruct (first_letter name2 N2) as (c & n' & -> & L). rewrite <- app_assoc in E. cbn [app] in E.
      destruct (blanks_end ws1 ws2 x1 _ B1 B2 C1 E) as (_ & r' & X). injection X as X _. subst c. discriminate.
    + exfalso. destruct (first_letter name2 N2) as (c & n' & -> & L). rewrite <- app_assoc in E. cbn [app] in E.
      destruct (blanks_end ws1 ws2 x1 _ B1 B2 C1 E) as (_ & r' & X). injection X as X _. subst c. discriminate.
  - destruct R2 as [ws2 B2|ws2 name2 e2 t2 rest2 ns2 B2 N2 S2 U2 R2|ws2 name2 as2 inner2 ch2 rest2 ns2 B2 N2 A2 RI2 R2].
    + exfalso. destruct (first_letter name1 N1) as (c & n' & -> & L). rewrite <- app_assoc in E. cbn [app] in E.
      destruct (blanks_end ws2 ws1 x2 _ B2 B1 C2 (eq_sym E)) as (_ & r' & X). injection X as X _. subst c. discriminate.
    + inversion F1 as [|? ? _ F1']; inversion F2 as [|? ? _ F2']; subst.
      rewrite <- ?app_assoc in E. cbn [app] in E. destruct (blanks_split _ _ _ _ B1 B2 E) as [-> E1]. rewrite <- ?app_assoc in E1. cbn [app] in E1.
      destruct (name_split _ _ 62 62 _ _ N1 N2 eq_refl eq_refl E1) as (-> & _ & E2). rewrite <- ?app_assoc in E2. cbn [app] in E2.
      edestruct (split_at (fun c => c =? 60) e1 e2 60 60) as (-> & _ & E3); [| |reflexivity|reflexivity|exact E2|].
      { intros c I. apply Z.eqb_neq. intros ->. exact (safe_no 60 _ S1 ltac:(auto) I). }
      { intros c I. apply Z.eqb_neq. intros ->. exact (safe_no 60 _ S2 ltac:(auto) I). }
      injection E3 as E3. rewrite <- ?app_assoc in E3. apply app_inv_head in E3. cbn [app] in E3. injection E3 as E3.
      destruct (IH1 F1' rest2 ns2 x1 x2 R2 F2' C1 C2 E3) as [-> ->]. auto.
    + exfalso. inversion F2 as [|? ? So F2']; subst. destruct (solid_children _ _ _ So) as [Hc _].
      rewrite <- ?app_assoc in E. cbn [app] in E. destruct (blanks_split _ _ _ _ B1 B2 E) as [-> E1]. rewrite <- ?app_assoc in E1. cbn [app] in E1.
      destruct as2 as [|[n v] as2].
      * cbn [attrs_text flat_map app] in E1. rewrite <- ?app_assoc in E1. cbn [app] in E1. destruct (name_split _ _ 62 62 _ _ N1 N2 eq_refl eq_refl E1) as (-> & _ & E2). rewrite <- ?app_assoc in E2. cbn [app] in E2.
        exact (leaf_not_elem _ _ _ _ _ S1 RI2 Hc E2).
      * unfold attrs_text in E1. cbn [flat_map app] in E1. rewrite <- ?app_assoc in E1. cbn [app] in E1.
        destruct (name_split _ _ 62 32 _ _ N1 N2 eq_refl eq_refl E1) as (_ & X & _). discriminate.
  - destruct R2 as [ws2 B2|ws2 name2 e2 t2 rest2 ns2 B2 N2 S2 U2 R2|ws2 name2 as2 inner2 ch2 rest2 ns2 B2 N2 A2 RI2 R2].
    + exfalso. destruct (first_letter name1 N1) as (c & n' & -> & L). rewrite <- app_assoc in E. cbn [app] in E.
      destruct (blanks_end ws2 ws1 x2 _ B2 B1 C2 (eq_sym E)) as (_ & r' & X). injection X as X _. subst c. discriminate.
    + exfalso. inversion F1 as [|? ? So F1']; subst. destruct (solid_children _ _ _ So) as [Hc _].
      rewrite <- ?app_assoc in E. cbn [app] in E. destruct (blanks_split _ _ _ _ B1 B2 E) as [-> E1]. rewrite <- ?app_assoc in E1. cbn [app] in E1.
      destruct as1 as [|[n v] as1].
      * cbn [attrs_text flat_map app] in E1. rewrite <- ?app_assoc in E1. cbn [app] in E1. destruct (name_split _ _ 62 62 _ _ N1 N2 eq_refl eq_refl E1) as (-> & _ & E2). rewrite <- ?app_assoc in E2. cbn [app] in E2.
        exact (leaf_not_elem _ _ _ _ _ S2 RI1 Hc (eq_sym E2)).
      * unfold attrs_text in E1. cbn [flat_map app] in E1. rewrite <- ?app_assoc in E1. cbn [app] in E1.
        destruct (name_split _ _ 32 62 _ _ N1 N2 eq_refl eq_refl E1) as (_ & X & _). discriminate.
    + inversion F1 as [|? ? So1 F1']; inversion F2 as [|? ? So2 F2']; subst. destruct (solid_children _ _ _ So1) as [_ Fc1]. destruct (solid_children _ _ _ So2) as [_ Fc2].
      rewrite <- ?app_assoc in E. cbn [app] in E. destruct (blanks_split _ _ _ _ B1 B2 E) as [-> E1]. rewrite <- ?app_assoc in E1. cbn [app] in E1.
      assert (X : forall as' r, exists c r', nonletter c = true /\ attrs_text as' ++ 62 :: r = c :: r').
      { intros [|[n v] as'] r; [exists 62, r; auto|]. exists 32. eexists. split; [reflexivity|]. unfold attrs_text. cbn [flat_map app]. reflexivity. }
      match type of E1 with _ ++ attrs_text as1 ++ 62 :: ?r1 = _ ++ attrs_text as2 ++ 62 :: ?r2 => pose (q1 := r1); pose (q2 := r2); fold q1 q2 in E1 end.
      destruct (X as1 q1) as (c1 & t1 & L1 & X1), (X as2 q2) as (c2 & t2 & L2 & X2).
      assert (name1 = name2) as -> by (rewrite X1, X2 in E1; exact (proj1 (name_split _ _ _ _ _ _ N1 N2 L1 L2 E1))).
      apply app_inv_head in E1. destruct (attrs_split as1 as2 q1 q2 A1 A2 E1) as [-> Q]. unfold q1, q2 in Q. rewrite <- ?app_assoc in Q. cbn [app] in Q.
      destruct (IHI1 Fc1 inner2 ch2 _ _ RI2 Fc2 (or_intror (ex_intro _ _ eq_refl)) (or_intror (ex_intro _ _ eq_refl)) Q) as [-> ->].
      apply app_inv_head in Q. injection Q as Q. rewrite <- ?app_assoc in Q. apply app_inv_head in Q. cbn [app] in Q. injection Q as Q.
      destruct (IH1 F1' rest2 ns2 x1 x2 R2 F2' C1 C2 Q) as [-> ->]. auto.
Qed.

(** ** Numbers have one reading *)
Lemma decimal_once n m t : decimal n t -> decimal m t -> n = m.
Proof. intros [A _] [B _]. congruence. Qed.
Lemma le_once : forall a b, bytes a -> bytes b -> length a = length b -> le a = le b -> a = b.
Proof.
  induction a as [|x a IH]; intros [|y b] Ha Hb L E; try discriminate L; [reflexivity|].
  inversion Ha as [|? ? X Ha']; inversion Hb as [|? ? Y Hb']; subst. cbn [le fold_right] in E. fold (le a) in E. fold (le b) in E.
  unfold is_byte in X, Y. assert (x = y /\ le a = le b) as [-> E'] by lia. f_equal. apply IH; auto.
Qed.
Lemma twos_once n u v : 0 <= u < 256 ^ Z.of_nat n -> 0 <= v < 256 ^ Z.of_nat n -> (0 < n)%nat -> twos n u = twos n v -> u = v.
Proof.
  unfold twos. intros U V N E. replace (256 ^ Z.of_nat n) with (2 ^ (8 * Z.of_nat n)) in U, V by (rewrite Z.pow_mul_r by lia; reflexivity).
  assert (P : 2 ^ (8 * Z.of_nat n) = 2 * 2 ^ (8 * Z.of_nat n - 1)) by (rewrite <- Z.pow_succ_r by lia; f_equal; lia).
  set (p := 2 ^ (8 * Z.of_nat n)) in *. set (q := 2 ^ (8 * Z.of_nat n - 1)) in *. clearbody p q.
  destruct (Z.ltb_spec u q), (Z.ltb_spec v q); lia.
Qed.
Lemma digits_once : forall d1 d2, Forall (fun p => digit (fst p) /\ digit (snd p)) d1 -> Forall (fun p => digit (fst p) /\ digit (snd p)) d2 ->
  length d1 = length d2 -> dec (flat d1) = dec (flat d2) -> d1 = d2.
Proof.
  induction d1 as [|[x1 y1] d1 IH]; intros [|[x2 y2] d2] F1 F2 L E; try discriminate L; [reflexivity|].
  inversion F1 as [|? ? [A1 B1] F1']; inversion F2 as [|? ? [A2 B2] F2']; subst. cbn [fst snd] in *.
  unfold flat in E. cbn [flat_map fst snd app dec fold_right] in E. fold (flat d1) in E. fold (flat d2) in E. fold (dec (flat d1)) in E. fold (dec (flat d2)) in E.
  unfold digit in *. assert (x1 = x2) as -> by lia. assert (y1 = y2) as -> by lia. f_equal. cbn [length] in L. apply IH; auto; lia.
Qed.
Lemma pack_len ds : length (pack_digits ds) = length ds.
Proof. induction ds as [|[x y] ds IH]; cbn; congruence. Qed.
Lemma read_digits_chars b : forall t acc n, read_digits b t acc = Some n -> Forall (fun c => 48 <= c <= 102) t.
Proof.
  induction t as [|c t IH]; intros acc n E; [constructor|]. cbn [read_digits] in E. destruct (digit_value c) as [d|] eqn:D; [|discriminate].
  destruct (d <? b); [|discriminate]. constructor; [|exact (IH _ _ E)]. unfold digit_value in D.
  destruct (Z.leb_spec 48 c), (Z.leb_spec c 57); cbn [andb] in D; try (split; lia);
  destruct (Z.leb_spec 65 c), (Z.leb_spec c 70); cbn [andb] in D; try (split; lia);
  destruct (Z.leb_spec 97 c), (Z.leb_spec c 102); cbn [andb] in D; try discriminate; split; lia.
Qed.
Lemma shown_plain t : Forall (fun c => 32 <= c /\ c <> 127) t -> shown t = t.
Proof. induction 1 as [|c t [A B] _ IH]; [reflexivity|]. unfold shown. cbn [map]. fold (shown t). rewrite IH. unfold blank_control, is_control. destruct (Z.ltb_spec c 32); [lia|]. destruct (Z.eqb_spec c 127); [lia|reflexivity]. Qed.
Lemma decimal_shown n t : decimal n t -> shown t = t.
Proof.
  intros [R _]. apply shown_plain. unfold read_int in R.
  assert (X : forall s m, read_nat 10 s = Some m -> Forall (fun c => 32 <= c /\ c <> 127) s).
  { intros [|c s] m E; [discriminate|]. apply read_digits_chars in E. revert E. apply Forall_impl. lia. }
  destruct t as [|c t]; [discriminate|]. destruct (Z.eq_dec c 45) as [-> |N].
  - destruct (read_nat 10 t) as [m|] eqn:E; [|discriminate]. constructor; [lia|exact (X _ _ E)].
  - apply (X _ n). destruct c as [|p|p]; try exact R. do 6 (destruct p as [p|p|]; try exact R). contradiction.
Qed.

(** ** The lines of a document *)
Section Lined.
  Variable stamp : Z -> option (list Z).
  Fixpoint lined (l : list (option Z * entry)) (i : Z) (out : list node) : Prop :=
    match l with
    | [] => out = []
    | (k, e) :: l' => exists n ns out', out = n :: out' /\ entry_nodes e ns /\
                        record_node i (match k with Some k => k | None => -1 end) (stamp i) ns n /\ lined l' (i + 1) out'
    end.
  Lemma lined_app l1 : forall l2 i o1 o2, lined l1 i o1 -> lined l2 (i + Z.of_nat (length l1)) o2 -> lined (l1 ++ l2) i (o1 ++ o2).
  Proof.
    induction l1 as [|[k e] l1 IH]; intros l2 i o1 o2 H1 H2; cbn [lined app] in *.
    - subst o1. replace (i + Z.of_nat (length (@nil (option Z * entry)))) with i in H2 by (cbn; lia). exact H2.
    - destruct H1 as (n & ns & out' & -> & E & R & H1). exists n, ns, (out' ++ o2). split; [reflexivity|]. split; [exact E|]. split; [exact R|].
      apply IH; [exact H1|]. replace (i + 1 + Z.of_nat (length l1)) with (i + Z.of_nat (length ((k, e) :: l1))) by (cbn [length]; lia). exact H2.
  Qed.
  Lemma entries_lined ko k : k = match ko with Some k => k | None => -1 end -> forall es i out, entries_nodes stamp es i k out -> lined (map (pair ko) es) i out.
  Proof.
    intros ->. induction es as [|e es IH]; intros i out H; [exact H|]. cbn [entries_nodes map lined] in *. destruct H as (n & ns & out' & E & En & R & H).
    exists n, ns, out'. auto.
  Qed.
  Lemma telegrams_lined : forall tels k i out, telegrams_nodes stamp tels i k out -> lined (numbered k tels) i out.
  Proof.
    induction tels as [|es tels IH]; intros k i out H; [exact H|]. cbn [telegrams_nodes numbered] in *. destruct H as (o1 & o2 & -> & H1 & H2).
    apply lined_app; [apply (entries_lined (Some k) k); auto|]. rewrite map_length. auto.
  Qed.
  Lemma document_lined tels recs : telegrams_nodes stamp tels 0 (match tels with [_] => -1 | _ => 0 end) recs -> lined (listing tels) 0 recs.
  Proof.
    destruct tels as [|es [|es' tels]]; intros H; [exact H| |exact (telegrams_lined _ _ _ _ H)].
    cbn [telegrams_nodes] in H. destruct H as (o1 & o2 & -> & H1 & ->). rewrite app_nil_r. cbn [listing]. apply (entries_lined None (-1)); auto.
  Qed.
End Lined.
Lemma numbered_nonneg : forall tels k, 0 <= k -> Forall (fun x => match fst x with Some k => 0 <= k | None => True end) (numbered k tels).
Proof.
  induction tels as [|es tels IH]; intros k K; [constructor|]. cbn [numbered]. apply Forall_app. split; [|apply IH; lia].
  apply Forall_forall. intros x I. apply in_map_iff in I. destruct I as (e & <- & _). exact K.
Qed.
Lemma listing_nonneg tels : Forall (fun x => match fst x with Some k => 0 <= k | None => True end) (listing tels).
Proof.
  destruct tels as [|es [|es' tels]]; [constructor| |apply numbered_nonneg; lia]. cbn [listing].
  apply Forall_forall. intros x I. apply in_map_iff in I. destruct I as (e & <- & _). exact Logic.I.
Qed.
Lemma listing_wf tels : Forall (Forall wf_entry) tels -> Forall (fun x => wf_entry (snd x)) (listing tels).
Proof.
  assert (M : forall (k : option Z) es, Forall wf_entry es -> Forall (fun x => wf_entry (snd x)) (map (pair k) es)).
  { intros k es F. apply Forall_forall. intros x I. apply in_map_iff in I. destruct I as (e & <- & J). rewrite Forall_forall in F. apply F, J. }
  assert (N : forall tels k, Forall (Forall wf_entry) tels -> Forall (fun x => wf_entry (snd x)) (numbered k tels)).
  { induction tels0 as [|es tels' IH]; intros k F; [constructor|]. inversion F; subst. cbn [numbered]. apply Forall_app. split; auto. }
  intros F. destruct tels as [|es [|es' tels]]; [constructor| |apply N; exact F]. cbn [listing]. apply M. inversion F; auto.
Qed.

Lemma leaf_eq n1 n2 t1 t2 : leaf n1 t1 = leaf n2 t2 -> cstr n1 = cstr n2 /\ t1 = t2.
Proof. unfold leaf. intros E. split; congruence. Qed.
Lemma function_once d1 d2 : function_name d1 = function_name d2 -> (d1 / 16) mod 4 = (d2 / 16) mod 4.
Proof.
  unfold function_name. pose proof (Z.mod_pos_bound (d1 / 16) 4 ltac:(lia)) as A. pose proof (Z.mod_pos_bound (d2 / 16) 4 ltac:(lia)) as B.
  set (x := (d1 / 16) mod 4) in *. set (y := (d2 / 16) mod 4) in *. clearbody x y.
  assert (X : x = 0 \/ x = 1 \/ x = 2 \/ x = 3) by lia. assert (Y : y = 0 \/ y = 1 \/ y = 2 \/ y = 3) by lia.
  destruct X as [-> |[-> |[-> | ->]]], Y as [-> |[-> |[-> | ->]]]; vm_compute; intros E; try reflexivity; discriminate E.
Qed.
Definition ending (s : option (list Z)) : list node := match s with Some t => [leaf "Timestamp" t] | None => [] end.
Lemma entry_once e1 e2 ns1 ns2 s1 s2 : wf_entry e1 -> wf_entry e2 -> entry_nodes e1 ns1 -> entry_nodes e2 ns2 -> ns1 ++ ending s1 = ns2 ++ ending s2 ->
  same_entry e1 e2 /\ s1 = s2.
Proof.
  intros W1 W2 H1 H2 E.
  assert (EndE : ending s1 = ending s2 -> s1 = s2).
  { destruct s1, s2; cbn; try discriminate; [|auto]. intros X. injection X as X. congruence. }
  destruct e1 as [a|m1 b1], e2 as [b|m2 b2]; cbn [entry_nodes] in H1, H2.
  - destruct H1 as (u1 & v1 & st1 & td1 & U1 & V1 & S1 & T1 & ->), H2 as (u2 & v2 & st2 & td2 & U2 & V2 & S2 & T2 & ->).
    cbn [app] in E. injection E as EF ES ER.
    assert (W : same_record a b /\ s1 = s2); [|exact W]. subst st2. pose proof (decimal_once _ _ _ S1 S2) as ES.
    assert (FN : (a_dif a / 16) mod 4 = (a_dif b / 16) mod 4).
    { exact (function_once _ _ EF). }
    destruct (a_difes a) as [|x1 xs1] eqn:D1, (a_difes b) as [|x2 xs2] eqn:D2.
    + subst td1 td2. cbn [app] in ER. injection ER as EU EV EE. split; [|auto]. unfold same_record. rewrite D1, D2.
      split; [exact FN|]. split; [exact ES|]. split; [tauto|]. split; [reflexivity|]. split; [reflexivity|]. exists u1, v1, u2, v2. repeat split; assumption.
    + exfalso. subst td1. destruct T2 as (t & d & _ & _ & ->). cbn [app] in ER. injection ER as EU _. discriminate EU.
    + exfalso. subst td2. destruct T1 as (t & d & _ & _ & ->). cbn [app] in ER. injection ER as EU _. discriminate EU.
    + destruct T1 as (t1 & d1 & T1 & N1 & ->), T2 as (t2 & d2 & T2 & N2 & ->). cbn [app] in ER. injection ER as ET ED EU EV EE. subst t2 d2.
      split; [|auto]. unfold same_record. rewrite D1, D2. split; [exact FN|]. split; [exact ES|]. split; [split; discriminate|].
      split; [exact (decimal_once _ _ _ T1 T2)|]. split; [exact (decimal_once _ _ _ N1 N2)|]. exists u1, v1, u2, v2. repeat split; assumption.
  - exfalso. destruct H1 as (u1 & v1 & st1 & td1 & _ & _ & _ & _ & ->). subst ns2. cbn [app] in E. injection E as _ X _. discriminate X.
  - exfalso. destruct H2 as (u1 & v1 & st1 & td1 & _ & _ & _ & _ & ->). subst ns1. cbn [app] in E. injection E as _ X _. discriminate X.
  - subst ns1 ns2. cbn [app] in E. injection E as EF EV EE. split; [|auto]. cbn [same_entry]. split.
    + destruct m1, m2; try reflexivity; discriminate EF.
    + destruct W1 as [_ B1], W2 as [_ B2].
      assert (X : rev b1 = rev b2) by (apply hex_text_inj; [apply Forall_rev; exact B1|apply Forall_rev; exact B2|exact EV]).
      rewrite <- (rev_involutive b1), <- (rev_involutive b2), X. reflexivity.
Qed.
Lemma record_once i1 i2 k1 k2 s1 s2 ns1 ns2 n : (match k1 with Some k => 0 <= k | None => True end) -> (match k2 with Some k => 0 <= k | None => True end) ->
  record_node i1 (match k1 with Some k => k | None => -1 end) s1 ns1 n -> record_node i2 (match k2 with Some k => k | None => -1 end) s2 ns2 n ->
  i1 = i2 /\ k1 = k2 /\ ns1 ++ ending s1 = ns2 ++ ending s2.
Proof.
  intros K1 K2 (t1 & a1 & D1 & A1 & E1) (t2 & a2 & D2 & A2 & E2). rewrite E1 in E2. assert (EA : a1 = a2) by congruence.
  assert (EN : ns1 ++ ending s1 = ns2 ++ ending s2) by (unfold ending; congruence). clear E1 E2. subst a2.
  destruct k1 as [k1|], k2 as [k2|].
  - destruct (Z.ltb_spec k1 0); [lia|]. destruct (Z.ltb_spec k2 0); [lia|]. destruct A1 as (f1 & F1 & ->), A2 as (f2 & F2 & X). injection X as -> ->.
    split; [exact (decimal_once _ _ _ D1 D2)|]. split; [f_equal; exact (decimal_once _ _ _ F1 F2)|exact EN].
  - destruct (Z.ltb_spec k1 0); [lia|]. cbn in A2. destruct A1 as (f1 & F1 & ->). discriminate A2.
  - destruct (Z.ltb_spec k2 0); [lia|]. cbn in A1. destruct A2 as (f1 & F1 & ->). discriminate A1.
  - cbn in A1, A2. subst a1. injection A2 as ->. split; [exact (decimal_once _ _ _ D1 D2)|]. split; [reflexivity|exact EN].
Qed.
Lemma lined_once st1 st2 : forall l1 l2 i out, Forall (fun x => wf_entry (snd x)) l1 -> Forall (fun x => wf_entry (snd x)) l2 ->
  Forall (fun x => match fst x with Some k => 0 <= k | None => True end) l1 -> Forall (fun x => match fst x with Some k => 0 <= k | None => True end) l2 ->
  lined st1 l1 i out -> lined st2 l2 i out -> same_listing l1 l2 /\ (forall j, i <= j < i + Z.of_nat (length l1) -> st1 j = st2 j).
Proof.
  induction l1 as [|[k1 e1] l1 IH]; intros [|[k2 e2] l2] i out W1 W2 K1 K2 H1 H2; cbn [lined] in H1, H2.
  - split; [constructor|]. cbn. intros; lia.
  - exfalso. destruct H2 as (n & ns & out' & E & _). congruence.
  - exfalso. destruct H1 as (n & ns & out' & E & _). congruence.
  - destruct H1 as (n & ns1 & out' & -> & N1 & R1 & H1), H2 as (n2 & ns2 & out2 & X & N2 & R2 & H2). assert (n2 = n /\ out2 = out') as [-> ->] by (split; congruence).
    inversion W1 as [|? ? Wa W1']; inversion W2 as [|? ? Wb W2']; inversion K1 as [|? ? Ka K1']; inversion K2 as [|? ? Kb K2']; subst. cbn [fst snd] in *.
    destruct (record_once _ _ k1 k2 _ _ _ _ _ Ka Kb R1 R2) as (_ & EK & EN). destruct (entry_once _ _ _ _ _ _ Wa Wb N1 N2 EN) as [S1 S2].
    destruct (IH l2 (i + 1) out' W1' W2' K1' K2' H1 H2) as [S3 S4]. split; [constructor; [split; assumption|exact S3]|].
    intros j J. destruct (Z.eq_dec j i) as [-> |]; [exact S2|]. apply S4. cbn [length] in J. lia.
Qed.
Lemma media_once m : is_byte m -> shown (mbus_data_variable_medium_lookup m) = mbus_data_variable_medium_lookup m.
Proof.
  intros H. apply shown_plain. assert (X : forallb (fun c => (32 <=? c) && negb (c =? 127)) (mbus_data_variable_medium_lookup m) = true).
  { apply eqb_prop. revert m H. apply byte_cases. vm_compute. reflexivity. }
  rewrite forallb_forall in X. apply Forall_forall. intros c I. specialize (X c I). lia.
Qed.
Lemma slave_once h1 h2 n : bytes h1 -> bytes h2 -> slave_node h1 n -> slave_node h2 n -> same_slave h1 h2.
Proof.
  intros B1 B2 (a0 & a1 & a2 & a3 & m0 & m1 & ve & me & ac & st & s0 & s1 & -> & tid & tman & tver & tacc & tst & tsig & (I1 & _) & M1 & V1 & A1 & T1 & G1 & E1)
    (b0 & b1 & b2 & b3 & n0 & n1 & ve' & me' & ac' & st' & z0 & z1 & -> & tid' & tman' & tver' & tacc' & tst' & tsig' & (I2 & _) & M2 & V2 & A2 & T2 & G2 & E2).
  rewrite E1 in E2. clear E1.
  pose proof (f_equal (fun n => match n with Elem _ _ l => map (fun x => match x with Leaf _ t => t | _ => [] end) l | _ => [] end) E2) as X. cbn [map leaf] in X. clear E2.
  assert (tid' = tid /\ tman' = tman /\ tver' = tver /\ shown (mbus_data_variable_medium_lookup me) = shown (mbus_data_variable_medium_lookup me') /\ tacc' = tacc /\ tst' = tst /\ tsig' = tsig)
    as (-> & -> & -> & Md & -> & -> & ->) by (repeat split; congruence). clear X.
  assert (Hb : forall x, In x [a0; a1; a2; a3; m0; m1; ve; me; ac; st; s0; s1] -> is_byte x) by (apply Forall_forall; exact B1).
  assert (Hc : forall x, In x [b0; b1; b2; b3; n0; n1; ve'; me'; ac'; st'; z0; z1] -> is_byte x) by (apply Forall_forall; exact B2).
  rewrite !media_once in Md by (first [apply Hb; cbn [In]; tauto|apply Hc; cbn [In]; tauto]).
  assert (Eid : [a0; a1; a2; a3] = [b0; b1; b2; b3]).
  { apply le_once; [| |reflexivity|congruence]; repeat (apply Forall_cons || apply Forall_nil); first [apply Hb; cbn [In]; tauto|apply Hc; cbn [In]; tauto]. }
  pose proof (decimal_once _ _ _ V1 V2) as Ev. pose proof (decimal_once _ _ _ A1 A2) as Ea.
  assert (Es : st = st') by (destruct T1 as (_ & T1 & _), T2 as (_ & T2 & _); congruence).
  assert (Eg : s0 + 256 * s1 = z0 + 256 * z1) by (destruct G1 as (_ & G1 & _), G2 as (_ & G2 & _); congruence).
  assert (Em : (m0 + 256 * m1) mod 2 ^ 15 = (n0 + 256 * n1) mod 2 ^ 15).
  { destruct M1 as (x & y & z & -> & _ & _ & _ & <-), M2 as (x' & y' & z' & X & _ & _ & _ & <-). injection X as -> -> ->. reflexivity. }
  assert (is_byte m0 /\ is_byte m1 /\ is_byte n0 /\ is_byte n1 /\ is_byte s0 /\ is_byte s1 /\ is_byte z0 /\ is_byte z1) as (P1 & P2 & P3 & P4 & P5 & P6 & P7 & P8)
    by (repeat split; first [apply Hb; cbn [In]; tauto|apply Hc; cbn [In]; tauto]).
  clear - Eid Ev Ea Es Eg Em Md P1 P2 P3 P4 P5 P6 P7 P8. unfold is_byte in *. change (2 ^ 15) with 32768 in Em.
  assert (m0 = n0 /\ m1 mod 128 = n1 mod 128) as [-> Em'] by (split; Z.div_mod_to_equations; lia). assert (s0 = z0 /\ s1 = z1) as [-> ->] by lia.
  injection Eid as -> -> -> ->. subst. unfold same_slave. cbn [firstn nth skipn]. auto.
Qed.
Lemma leaves_solid l : Forall (fun n => match n with Leaf _ _ => True | _ => False end) l -> Forall solid l.
Proof. apply Forall_impl. intros [n t|n a l']; [intros _; exact I|contradiction]. Qed.
Lemma solid_elem n a l : l <> [] -> Forall solid l -> solid (Elem n a l).
Proof. intros N F. split; [exact N|]. clear N. induction F; [exact I|]. split; assumption. Qed.
Lemma slave_solid h n : slave_node h n -> solid n.
Proof.
  intros (a0 & a1 & a2 & a3 & m0 & m1 & ve & me & ac & st & s0 & s1 & _ & tid & tman & tver & tacc & tst & tsig & _ & _ & _ & _ & _ & _ & ->).
  apply solid_elem; [discriminate|]. repeat (apply Forall_cons || apply Forall_nil); exact I.
Qed.
Lemma entry_solid e ns s : entry_nodes e ns -> Forall solid (ns ++ ending s) /\ ns ++ ending s <> [].
Proof.
  intros H. assert (Z : Forall solid (ending s)) by (destruct s; repeat (apply Forall_cons || apply Forall_nil); exact I).
  destruct e as [a|m b]; cbn [entry_nodes] in H.
  - destruct H as (u & v & st & td & _ & _ & _ & T & ->). split; [|discriminate]. apply Forall_app. split; [|exact Z]. cbn [app]. apply Forall_cons; [exact I|]. apply Forall_cons; [exact I|].
    apply Forall_app. split; [|repeat (apply Forall_cons || apply Forall_nil); exact I].
    destruct (a_difes a); [subst td; constructor|]. destruct T as (t & d & _ & _ & ->). repeat (apply Forall_cons || apply Forall_nil); exact I.
  - subst ns. split; [|discriminate]. cbn [app]. repeat apply Forall_cons; try exact I. exact Z.
Qed.
Lemma lined_solid st : forall l i out, lined st l i out -> Forall solid out.
Proof.
  induction l as [|[k e] l IH]; intros i out H; cbn [lined] in H; [subst; constructor|]. destruct H as (n & ns & out' & -> & E & (t & a & _ & _ & ->) & H).
  constructor; [|exact (IH _ _ H)]. fold (ending (st i)). destruct (entry_solid e ns (st i) E). apply solid_elem; assumption.
Qed.
(** The elements of a text. *)
Lemma text_once l n1 n2 : solid n1 -> solid n2 -> renders l [n1] -> renders l [n2] -> n1 = n2.
Proof.
  intros S1 S2 R1 R2. destruct (renders_once l [n1] R1 (Forall_cons _ S1 (Forall_nil _)) l [n2] [] [] R2 (Forall_cons _ S2 (Forall_nil _)) (or_introl eq_refl) (or_introl eq_refl) eq_refl) as [E _].
  congruence.
Qed.
Theorem document_once st1 st2 h1 h2 tels1 tels2 l : bytes h1 -> bytes h2 -> Forall (Forall wf_entry) tels1 -> Forall (Forall wf_entry) tels2 ->
  document st1 h1 tels1 l -> document st2 h2 tels2 l ->
  same_slave h1 h2 /\ same_listing (listing tels1) (listing tels2) /\ (forall j, 0 <= j < Z.of_nat (length (listing tels1)) -> st1 j = st2 j).
Proof.
  intros B1 B2 W1 W2 (b1 & s1 & r1 & -> & R1 & S1 & T1) (b2 & s2 & r2 & E & R2 & S2 & T2).
  apply app_inv_head in E. apply app_inv_head in E. subst b2. apply document_lined in T1. apply document_lined in T2.
  assert (X : Elem (cstr "MBusData") [] (s1 :: r1) = Elem (cstr "MBusData") [] (s2 :: r2)).
  { apply (text_once b1); try assumption; (apply solid_elem; [discriminate|]); (constructor; [eapply slave_solid; eassumption|eapply lined_solid; eassumption]). }
  assert (s2 = s1 /\ r2 = r1) as [-> ->] by (split; congruence).
  split; [exact (slave_once h1 h2 s1 B1 B2 S1 S2)|].
  exact (lined_once st1 st2 _ _ 0 r1 (listing_wf _ W1) (listing_wf _ W2) (listing_nonneg _) (listing_nonneg _) T1 T2).
Qed.
