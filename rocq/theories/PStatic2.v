(** Proofs about the static arrays, continued: the documents. Built in unwritten memory out of the arrays, each document is
    the one of the models that start from clean memory; and a call writes only its own arrays. *)
From Coq Require Import String.
From Coq Require Import List.
From Verif Require Import CBase PBase CStr MFrame MCodec SCodec PCodec PCodec2 MVar MText MXml MUnit MXmlN MSecond SVar SXml SText
  PVar PVar2 PVar3 PText PText2 PText3 PXml PXml2 PXml3 PXml4 MStatic PStatic.

(** Both calls answer, with related answers, or both are undefined. *)
Definition agrees {A B} (R : A -> B -> Prop) (x : res A) (y : res B) : Prop :=
  match x, y with Ok a, Ok b => R a b | UB, UB => True | _, _ => False end.
Lemma agrees_bind {A B A' B'} (R : A -> B -> Prop) (R' : A' -> B' -> Prop) x y f g :
  agrees R x y -> (forall a b, R a b -> agrees R' (f a) (g b)) -> agrees R' (bind x f) (bind y g).
Proof. destruct x as [a|], y as [b|]; cbn; try tauto. intros H G. apply G, H. Qed.
Lemma agrees_Ok {A B} (R : A -> B -> Prop) a b : R a b -> agrees R (Ok a) (Ok b).
Proof. intros H. exact H. Qed.
Lemma agrees_more {A B} (R R' : A -> B -> Prop) x y : agrees R x y -> (forall a b, R a b -> R' a b) -> agrees R' x y.
Proof. destruct x, y; cbn; auto. Qed.
Lemma agrees_eq {A} (x : res A) : agrees eq x x.
Proof. destruct x; cbn; auto. Qed.

(** ** Two documents that differ only in bytes nobody has written *)
Definition alike (d1 d2 : doc) : Prop :=
  List.length (b_buf d1) = List.length (b_buf d2) /\ b_len d1 = b_len d2 /\ (1 <= List.length (b_buf d1))%nat /\
  exists p r1 r2, b_buf d1 = p ++ r1 /\ b_buf d2 = p ++ r2 /\ (Nat.min (b_len d1) (List.length (b_buf d1)) <= List.length p)%nat /\
    (b_len d1 = 0%nat \/ In 0 p).

Lemma firstn_prefix (p r : list Z) n : (n <= List.length p)%nat -> firstn n (p ++ r) = firstn n p.
Proof. intros H. rewrite firstn_app. replace (n - List.length p)%nat with 0%nat by lia. cbn [firstn]. apply app_nil_r. Qed.

Lemma append_alike d1 d2 s : alike d1 d2 -> agrees alike (doc_append d1 s) (doc_append d2 s).
Proof.
  intros (L & N & G & p & r1 & r2 & E1 & E2 & M & Z0). unfold doc_append. rewrite <- L, <- N.
  destruct (Nat.ltb_spec (List.length (b_buf d1)) (b_len d1)) as [H|H]; [exact I|].
  unfold snprintf_s. destruct (List.length (b_buf d1) - b_len d1)%nat as [|k] eqn:Ek.
  - cbn [bind agrees]. repeat split; cbn [b_buf b_len]; [exact L|exact G|]. exists p, r1, r2.
    split; [exact E1|]. split; [exact E2|]. split; [lia|]. destruct Z0; [lia|auto].
  - set (w := firstn k s ++ [0]). assert (Lw : List.length w = (Nat.min k (List.length s) + 1)%nat).
    { unfold w. rewrite app_length, firstn_length. reflexivity. }
    rewrite !put_list_ok by lia. cbn [bind agrees]. unfold alike. cbn [b_buf b_len].
    assert (F : firstn (b_len d1) (b_buf d1) = firstn (b_len d1) p /\ firstn (b_len d1) (b_buf d2) = firstn (b_len d1) p).
    { rewrite E1 at 1. rewrite E2. rewrite !firstn_prefix by lia. auto. }
    destruct F as [F1 F2]. rewrite F1, F2.
    assert (Lf : List.length (firstn (b_len d1) p) = b_len d1) by (rewrite firstn_length; lia).
    assert (LL : forall b, List.length b = List.length (b_buf d1) -> List.length (firstn (b_len d1) p ++ w ++ skipn (b_len d1 + List.length w) b) = List.length (b_buf d1)).
    { intros b Hb. rewrite !app_length, skipn_length, Lf. lia. }
    rewrite !LL by (try reflexivity; symmetry; exact L).
    split; [reflexivity|]. split; [reflexivity|]. split; [exact G|].
    exists (firstn (b_len d1) p ++ w), (skipn (b_len d1 + List.length w) (b_buf d1)), (skipn (b_len d1 + List.length w) (b_buf d2)).
    rewrite <- !app_assoc. split; [reflexivity|]. split; [reflexivity|]. rewrite app_length, Lf. split; [lia|].
    right. apply in_or_app. right. unfold w. apply in_or_app. right. left. reflexivity.
Qed.

Lemma fresh_buf m n : buf (snd (fresh m n)) = buf m. Proof. reflexivity. Qed.
Lemma grow_alike m d1 d2 : alike d1 d2 -> exists m', s_grow d1 m = (fst (s_grow d1 m), m') /\ alike (fst (s_grow d1 m)) (doc_grow d2) /\
  buf m' = buf m.
Proof.
  intros (L & N & G & p & r1 & r2 & E1 & E2 & M & Z0). unfold s_grow, doc_grow. rewrite <- L, <- N.
  destruct ((b_len d1 <=? List.length (b_buf d1))%nat && (List.length (b_buf d1) - b_len d1 <? 1024)%nat) eqn:C.
  - apply andb_true_iff in C. destruct C as [C _]. apply Nat.leb_le in C.
    pose proof (fresh_len m (List.length (b_buf d1))) as Lf. pose proof (fresh_buf m (List.length (b_buf d1))) as Eb. destruct (fresh m (List.length (b_buf d1))) as [b m']. cbn [fst snd] in *.
    exists m'. split; [reflexivity|]. split; [|exact Eb].
    unfold alike. cbn [b_buf b_len]. rewrite !app_length, repeat_length, Lf. split; [lia|]. split; [reflexivity|]. split; [lia|].
    exists p, (r1 ++ b), (r2 ++ repeat 0 (List.length (b_buf d1))). rewrite E1 at 1. rewrite E2. rewrite !app_assoc. split; [reflexivity|]. split; [reflexivity|].
    split; [lia|exact Z0].
  - exists m. split; [reflexivity|]. split; [|reflexivity]. cbn [fst]. repeat split; try assumption. exists p, r1, r2. auto.
Qed.
Lemma done_alike d1 d2 : alike d1 d2 -> b_len d1 <> 0%nat -> s_done d1 = Ok (c_text (b_buf d2)).
Proof.
  intros (L & N & G & p & r1 & r2 & E1 & E2 & M & Z0) H. destruct Z0 as [Z0|Z0]; [contradiction|]. unfold s_done.
  rewrite c_str_has by (rewrite E1; apply in_or_app; auto). rewrite E1, E2.
  apply in_split in Z0. destruct Z0 as (a & b & ->). rewrite <- !app_assoc. cbn [app]. rewrite !c_text_end. reflexivity.
Qed.
Lemma append_len d s d' : doc_append d s = Ok d' -> b_len d' = (b_len d + List.length s)%nat.
Proof.
  unfold doc_append. destruct (_ <? _)%nat; [discriminate|]. intros H. apply bind_Ok in H. destruct H as (b & _ & H). apply ok_inj in H. subst d'. reflexivity.
Qed.
Lemma new_alike m : exists d m', s_new m = (d, m') /\ alike d doc_new /\ buf m' = buf m.
Proof.
  unfold s_new. pose proof (fresh_len m (8 * 1024)) as Lf. pose proof (fresh_buf m (8 * 1024)) as Eb. destruct (fresh m (8 * 1024)) as [b m']. cbn [fst snd] in Lf, Eb.
  exists (mkDoc b 0), m'. split; [reflexivity|]. split; [|exact Eb].
  unfold alike, doc_new. cbn [b_buf b_len]. rewrite Lf, repeat_length. split; [reflexivity|]. split; [reflexivity|]. split; [lia|].
  exists [], b, (repeat 0 (8 * 1024)). split; [reflexivity|]. split; [reflexivity|]. split; [cbn; lia|auto].
Qed.

(** Closing a document. *)
Lemma close_alike (m0 : smem) L m d1 d2 : sized m -> kept L m0 m -> alike d1 d2 ->
  agrees (fun a b => sized (fst a) /\ kept L m0 (fst a) /\ snd a = b)
    (let* d := doc_append d1 XML_CLOSE in let* t := s_done d in Ok (m, t))
    (let* d := doc_append d2 XML_CLOSE in Ok (c_text (b_buf d))).
Proof.
  intros S1 K A. pose proof (append_alike d1 d2 XML_CLOSE A) as B. pose proof (append_len d1 XML_CLOSE) as X.
  destruct (doc_append d1 XML_CLOSE) as [a|], (doc_append d2 XML_CLOSE) as [b|]; cbn [bind agrees] in *; try tauto.
  rewrite (done_alike a b B) by (rewrite (X a eq_refl); unfold XML_CLOSE; rewrite app_length; cbn; lia). cbn. auto.
Qed.

(** ** The beginning *)
Lemma start_alike m h : sized m -> bytes h -> List.length h = 12%nat ->
  agrees (fun a d => sized (fst a) /\ kept header_arrays m (fst a) /\ alike (snd a) d) (s_start m h) (doc_start h).
Proof.
  intros Hm Hb Hl. unfold s_start, doc_start. destruct (new_alike m) as (d & m1 & E & A & Eb). rewrite E.
  assert (S1 : sized m1) by (intros s; rewrite Eb; apply Hm).
  assert (K1 : kept header_arrays m m1) by (intros s _; rewrite Eb; reflexivity).
  apply (agrees_bind alike); [apply append_alike; exact A|]. intros d1 d2 A1.
  apply (agrees_bind alike); [apply append_alike; exact A1|]. intros d3 d4 A2.
  destruct (header_gives m1 h S1 Hb Hl) as (t & Et & Ct & m2 & p & E2 & S2 & K2 & T2 & _). rewrite Et, E2. cbn [bind]. rewrite T2. cbn [bind].
  pose proof (append_alike d3 d4 t A2) as X. destruct (doc_append d3 t), (doc_append d4 t); cbn [agrees bind fst snd] in X |- *; try tauto.
  split; [exact S2|]. split; [exact (kept_trans _ _ _ _ K1 K2)|exact X].
Qed.

Definition document_arrays : list slot := header_arrays ++ record_arrays.

Section Doc.
  Variable stamp : Z -> option (list Z).
  Hypothesis stamps : forall i t, stamp i = Some t -> ctext 21 t.

  Lemma records_alike : forall rs m0 m d1 d2 i fc, sized m -> kept record_arrays m0 m -> alike d1 d2 -> Forall parsed_rec rs ->
    0 <= i -> i + Z.of_nat (List.length rs) <= 256 ^ 8 -> Z.abs fc <= 256 ^ 8 ->
    agrees (fun a b => sized (fst (fst a)) /\ kept record_arrays m0 (fst (fst a)) /\ alike (snd (fst a)) (fst b) /\ snd a = snd b /\ snd b = i + Z.of_nat (List.length rs))
      (s_records stamp m d1 rs i fc) (doc_records stamp d2 rs i fc).
  Proof.
    induction rs as [|r rs IH]; intros m0 m d1 d2 i fc Hm K A P Hi Hn Hf; cbn [s_records doc_records].
    { cbn. repeat (split; [first [assumption|reflexivity]|]). lia. }
    inversion_clear P as [|? ? P1 P2]. destruct (grow_alike m d1 d2 A) as (m1 & E & A1 & Eb). rewrite E. set (d1' := fst (s_grow d1 m)) in *.
    assert (S1 : sized m1) by (intros s; rewrite Eb; apply Hm).
    assert (K1 : kept record_arrays m0 m1) by (intros s H; rewrite Eb; apply K, H).
    cbn [List.length] in Hn. rewrite Nat2Z.inj_succ in Hn.
    pose proof (record_gives m1 r i fc (stamp i) S1 P1 ltac:(lia) Hf (stamps i)) as X.
    destruct (mbus_data_variable_record_xml r i fc (stamp i)) as [t|]; [|rewrite X; exact I].
    destruct X as (Ct & m2 & p & E2 & S2 & K2 & T2 & _). rewrite E2. cbn [bind]. rewrite T2. cbn [bind].
    apply (agrees_bind alike); [apply append_alike; exact A1|]. intros d3 d4 A2.
    eapply agrees_more; [apply (IH m0 m2 d3 d4 (i + 1) fc S2 (kept_trans _ _ _ _ K1 K2) A2 P2); try lia|].
    cbv beta. intros a b (H1 & H2 & H3 & H4 & H5). repeat (split; [assumption|]). rewrite H5. cbn [List.length]. lia.
  Qed.

  Lemma variable_alike m dv : sized m -> bytes (v_header dv) -> List.length (v_header dv) = 12%nat -> Forall parsed_rec (v_records dv) ->
    Z.of_nat (List.length (v_records dv)) <= 256 ^ 8 ->
    agrees (fun a b => sized (fst a) /\ kept document_arrays m (fst a) /\ snd a = b) (s_variable_xml stamp m dv) (mbus_data_variable_xml stamp dv).
  Proof.
    intros Hm Hb Hl P Hn. unfold s_variable_xml, mbus_data_variable_xml.
    eapply agrees_bind; [apply start_alike; assumption|]. intros [m1 d1] d2 (S1 & K1 & A1). cbn [fst snd] in *.
    eapply agrees_bind; [apply (records_alike (v_records dv) m1 m1 d1 d2 0 (-1)); try assumption; try lia; apply kept_refl|].
    intros [[m2 d3] i] [d4 j] (S2 & K2 & A2 & _). cbn [fst snd] in *. apply close_alike; [exact S2| |exact A2].
    apply (kept_trans _ _ m1).
    - apply (kept_more header_arrays); [exact K1|]. intros s Hs. apply in_or_app. auto.
    - apply (kept_more record_arrays); [exact K2|]. intros s Hs. apply in_or_app. auto.
  Qed.
End Doc.

(** ** Documents of one piece: error and fixed structure *)
Definition dhold (n : nat) (T : list Z) (d : doc) : Prop := holds d T /\ ctext n T /\ List.length (b_buf d) = (8 * 1024)%nat.
Lemma dfirst d k s : List.length (b_buf d) = (8 * 1024)%nat -> b_len d = 0%nat -> ctext k s -> (k < 8 * 1024)%nat ->
  exists d', doc_append d s = Ok d' /\ dhold k s d'.
Proof.
  intros L N C H. unfold doc_append. rewrite N, L. destruct (Nat.ltb_spec (8 * 1024) 0); [lia|]. rewrite Nat.sub_0_r.
  assert (Hs : (List.length s < 8 * 1024)%nat) by (destruct C; lia).
  rewrite snprintf_ok by (rewrite L; lia). rewrite cut_all by exact Hs. cbn [bind].
  eexists. split; [reflexivity|]. unfold dhold, holds. cbn [b_buf b_len].
  assert (LL : List.length (s ++ 0 :: skipn (List.length s + 1) (b_buf d)) = (8 * 1024)%nat).
  { rewrite app_length. cbn [List.length]. rewrite skipn_length, L. lia. }
  rewrite LL. split; [split; [reflexivity|split; [exact Hs|]]|split; [exact C|reflexivity]].
  change (0 :: ?x) with ([0] ++ x). change (s ++ 0 :: skipn (List.length s + 1) (b_buf d)) with (s ++ [0] ++ skipn (List.length s + 1) (b_buf d)).
  rewrite app_assoc. apply firstn_app_exact. rewrite app_length. reflexivity.
Qed.
Lemma dnext d n T k s : dhold n T d -> ctext k s -> (n + k < 8 * 1024)%nat -> exists d', doc_append d s = Ok d' /\ dhold (n + k) (T ++ s) d'.
Proof.
  intros (H & C & L) Cs N. destruct (append_ok d T s H ltac:(destruct C, Cs; lia)) as (d' & E & H' & L').
  exists d'. split; [exact E|]. split; [exact H'|]. split; [apply ctext_app; assumption|lia].
Qed.
Lemma ddone d n T : dhold n T d -> s_done d = Ok T.
Proof.
  intros ((_ & _ & F) & C & _). unfold s_done. destruct (firstn_hold _ _ F) as [rest ->]. apply c_str_ok. apply C.
Qed.
Ltac dline Hd C :=
  let d' := fresh "d" in let E := fresh "E" in let H' := fresh "H" in
  destruct (dnext _ _ _ _ _ Hd C ltac:(lia)) as (d' & E & H'); rewrite E; cbn [bind]; clear E Hd; rename H' into Hd.
Ltac vmr := vm_compute; reflexivity.

Definition open_text : list Z := cstr "    <SlaveInformation>" ++ nl.
(** The common beginning of both. *)
Lemma dstart m k : sized m -> exists loc d m1 d1 d2 d3,
  fresh m k = (loc, snd (fresh m k)) /\ s_new (snd (fresh m k)) = (d, m1) /\ List.length loc = k /\ buf m1 = buf m /\
  doc_append d XML_PI = Ok d1 /\ doc_append d1 XML_OPEN = Ok d2 /\ doc_append d2 open_text = Ok d3 /\
  dhold 100 (XML_PI ++ XML_OPEN ++ open_text) d3.
Proof.
  intros Hm. exists (fst (fresh m k)). destruct (new_alike (snd (fresh m k))) as (d & m1 & E & A & Eb).
  destruct A as (L & N & _). unfold doc_new in L, N. cbn [b_buf b_len] in L, N. rewrite repeat_length in L.
  destruct (dfirst d 50 XML_PI L N ltac:(lit) ltac:(lia)) as (d1 & E1 & H1).
  destruct (dnext d1 _ _ 20 XML_OPEN H1 ltac:(lit) ltac:(lia)) as (d2 & E2 & H2).
  destruct (dnext d2 _ _ 30 open_text H2 ltac:(lit) ltac:(lia)) as (d3 & E3 & H3).
  exists d, m1, d1, d2, d3. split; [destruct (fresh m k); reflexivity|]. split; [exact E|]. split; [apply fresh_len|].
  split; [exact Eb|]. split; [exact E1|]. split; [exact E2|]. split; [exact E3|]. rewrite app_assoc. exact H3.
Qed.

Lemma error_gives m e : sized m -> is_byte e -> gives m [S_error] [S_error] (mbus_data_error_lookup e) (s_error m e).
Proof. intros H B. apply (sprint_gives m S_error 40); [exact H|apply error_ctext; exact B|cbn [size]; lia]. Qed.

(** A call, escaped into the local array. *)
Lemma shown_gives m L H t x loc k : gives m L H t x -> ctext k t -> (1 <= List.length loc)%nat ->
  exists m' p e b, x = Ok (m', p) /\ sized m' /\ kept L m m' /\ encode_at m' loc p = Ok b /\ List.length b = List.length loc /\ c_str b = Ok e /\
    encoded (List.length loc) t = Ok e /\ ctext (List.length loc - 1) e.
Proof.
  intros (m' & p & E & S1 & K & T & _) C N. destruct (encode_at_ok m' loc p t T (proj1 C) N) as (e & b & E1 & C1 & E2 & L2 & E3).
  exists m', p, e, b. repeat (split; [assumption|]). assumption.
Qed.

Lemma error_alike m e : sized m -> is_byte e -> exists t m', mbus_data_error_xml e = Ok t /\ s_error_xml m e = Ok (m', t) /\ sized m' /\ kept [S_error] m m'.
Proof.
  intros Hm He. destruct (dstart m 256 Hm) as (loc & d & m1 & d1 & d2 & d3 & Ef & En & Ll & Eb & E1 & E2 & E3 & Hd).
  unfold s_error_xml, mbus_data_error_xml. rewrite Ef, En, E1. cbn [bind]. rewrite E2. cbn [bind]. fold open_text. rewrite E3. cbn [bind].
  assert (S1 : sized m1) by (intros s; rewrite Eb; apply Hm).
  destruct (shown_gives m1 _ _ _ _ loc 40 (error_gives m1 e S1 He) (error_ctext e He) ltac:(lia)) as (m2 & p & t & b & Ec & S2 & K2 & Ee & Lb & Et & Een & Ct).
  rewrite Ec. cbn [bind]. rewrite Ee. cbn [bind]. rewrite Et. cbn [bind]. rewrite Ll in Een, Ct. rewrite Een. cbn [bind]. change (256 - 1)%nat with 255%nat in Ct.
  dline Hd (ctext_line (cstr "        <Error>") 255 t (cstr "</Error>" ++ nl) 20 ltac:(vmr) Ct ltac:(vmr)).
  assert (C1 : ctext 40 (cstr "    </SlaveInformation>" ++ nl ++ nl)) by lit. dline Hd C1.
  assert (C2 : ctext 20 XML_CLOSE) by lit. dline Hd C2. rewrite (ddone _ _ _ Hd). cbn [bind].
  eexists. exists m2. split; [reflexivity|]. split; [unfold open_text; rewrite <- !app_assoc; reflexivity|]. split; [exact S2|].
  intros s H. rewrite K2 by exact H. rewrite Eb. reflexivity.
Qed.

Definition fixed_arrays : list slot := [S_fixed_medium; S_fixed_function; S_fixed_unit].
Lemma counter_alike m loc d n T id status type val : sized m -> List.length loc = 256%nat -> dhold n T d -> (n <= 3000)%nat ->
  is_byte status -> is_byte type -> bytes val -> List.length val = 4%nat -> ctext 3 (cstr id) ->
  exists m' loc' d' t n', fixed_counter id status type val = Ok t /\ s_counter m loc d id status type val = Ok (m', loc', d') /\
    sized m' /\ kept fixed_arrays m m' /\ List.length loc' = 256%nat /\ dhold n' (T ++ t) d' /\ (n' <= n + 800)%nat.
Proof.
  intros Hm Ll Hd Hn Hs Ht Hv Lv Cid. unfold fixed_counter, s_counter.
  assert (C0 : ctext 30 (cstr "    <DataRecord id=""" ++ cstr id ++ cstr """>" ++ nl)).
  { apply (ctext_le (20 + (3 + 3))); [|lia]. apply ctext_app; [lit|]. apply ctext_app; [exact Cid|lit]. }
  dline Hd C0.
  destruct (shown_gives m _ _ _ _ loc 40 (fixed_function_gives m status Hm) (fixed_function_ctext status) ltac:(lia)) as (m2 & p & t & b & Ec & S2 & K2 & Ee & Lb & Et & Een & Ct).
  rewrite Ec. cbn [bind]. rewrite Ee. cbn [bind]. rewrite Et. cbn [bind]. rewrite Ll in Een, Ct. rewrite Een. cbn [bind]. change (256 - 1)%nat with 255%nat in Ct.
  dline Hd (ctext_line (cstr "        <Function>") 255 t (cstr "</Function>" ++ nl) 20 ltac:(vmr) Ct ltac:(vmr)).
  destruct (shown_gives m2 _ _ _ _ b 40 (fixed_unit_gives m2 type S2 Ht) (fixed_unit_ctext type Ht) ltac:(lia)) as (m3 & p3 & u & b3 & Ec3 & S3 & K3 & Ee3 & Lb3 & Et3 & Een3 & Ct3).
  rewrite Ec3. cbn [bind]. rewrite Ee3. cbn [bind]. rewrite Et3. cbn [bind]. rewrite Lb, Ll in Een3, Ct3. rewrite Een3. cbn [bind]. change (256 - 1)%nat with 255%nat in Ct3.
  dline Hd (ctext_line (cstr "        <Unit>") 255 u (cstr "</Unit>" ++ nl) 20 ltac:(vmr) Ct3 ltac:(vmr)).
  assert (Hle : 0 <= SCodec.le (firstn 4 val) < 256 ^ 4).
  { pose proof (le_bounds (firstn 4 val) (bytes_firstn 4 val Hv)) as B. rewrite firstn_length, Nat.min_l in B by lia. exact B. }
  assert (V : exists v, (if Z.land status 0x80 =? 0x00
             then let* n := mbus_data_bcd_decode_hex val 4 in Ok (fmt_X n)
             else let* (_, n) := mbus_data_int_decode val 4 in Ok (fmt_d n)) = Ok v /\ ctext 48 v).
  { destruct (_ =? _).
    - rewrite bcd_hex_spec by (try assumption; lia). cbn [bind]. eexists. split; [reflexivity|]. apply (ctext_le 16); [|lia]. apply hex_ctext.
      change (256 ^ 4) with 4294967296 in Hle. change (16 ^ 16) with 18446744073709551616. lia.
    - rewrite int_decode_spec by (try assumption; lia). cbn [bind]. eexists. split; [reflexivity|]. apply num_ctext.
      pose proof (twos_abs 4 (SCodec.le (firstn 4 val)) ltac:(lia) Hle). change (256 ^ Z.of_nat 4) with 4294967296 in *. change (256 ^ 8) with 18446744073709551616. lia. }
  destruct V as (v & Ev & Cv). rewrite Ev. cbn [bind].
  dline Hd (ctext_line (cstr "        <Value>") 48 v (cstr "</Value>" ++ nl) 20 ltac:(vmr) Cv ltac:(vmr)).
  assert (C1 : ctext 30 (cstr "    </DataRecord>" ++ nl ++ nl)) by lit. dline Hd C1.
  do 5 eexists. split; [reflexivity|]. split; [reflexivity|]. split; [exact S3|]. split.
  { apply (kept_trans _ m m2); [apply (kept_more _ _ _ _ K2); inlist|apply (kept_more _ _ _ _ K3); inlist]. }
  split; [lia|]. split; [rewrite <- !app_assoc in Hd; exact Hd|lia].
Qed.

Lemma fixed_alike m x : sized m -> fixed_bytes x -> exists t m', mbus_data_fixed_xml x = Ok t /\ s_fixed_xml m x = Ok (m', t) /\ sized m' /\ kept fixed_arrays m m'.
Proof.
  intros Hm (I1 & I2 & V1 & V2 & V3 & V4 & T1 & T2 & T3 & T4).
  destruct (dstart m 256 Hm) as (loc & d & m1 & d1 & d2 & d3 & Ef & En & Ll & Eb & E1 & E2 & E3 & Hd).
  unfold s_fixed_xml, mbus_data_fixed_xml. rewrite Ef, En, E1. cbn [bind]. rewrite E2. cbn [bind]. fold open_text. rewrite E3. cbn [bind].
  assert (S1 : sized m1) by (intros s; rewrite Eb; apply Hm).
  rewrite bcd_hex_spec by (try assumption; lia). cbn [bind].
  assert (Hid : 0 <= SCodec.le (firstn 4 (x_id x)) < 16 ^ 16).
  { pose proof (le_bounds (firstn 4 (x_id x)) (bytes_firstn 4 _ I1)) as X. rewrite firstn_length, Nat.min_l in X by lia. change (Z.of_nat 4) with 4 in X. lia. }
  dline Hd (ctext_line (cstr "        <Id>") 16 (fmt_X (SCodec.le (firstn 4 (x_id x)))) (cstr "</Id>" ++ nl) 20 ltac:(vmr) (hex_ctext _ Hid) ltac:(vmr)).
  destruct (shown_gives m1 _ _ _ _ loc 40 (fixed_medium_gives m1 x S1) (fixed_medium_ctext x) ltac:(lia)) as (m2 & p & t & b & Ec & S2 & K2 & Ee & Lb & Et & Een & Ct).
  rewrite Ec. cbn [bind]. rewrite Ee. cbn [bind]. rewrite Et. cbn [bind]. rewrite Ll in Een, Ct. rewrite Een. cbn [bind]. change (256 - 1)%nat with 255%nat in Ct.
  dline Hd (ctext_line (cstr "        <Medium>") 255 t (cstr "</Medium>" ++ nl) 20 ltac:(vmr) Ct ltac:(vmr)).
  assert (Cn : ctext 48 (fmt_d (x_tx_cnt x))) by (apply num_ctext; unfold is_byte in T1; lia).
  dline Hd (ctext_line (cstr "        <AccessNumber>") 48 (fmt_d (x_tx_cnt x)) (cstr "</AccessNumber>" ++ nl) 30 ltac:(vmr) Cn ltac:(vmr)).
  dline Hd (ctext_line (cstr "        <Status>") 2 (fmt_X2 (x_status x)) (cstr "</Status>" ++ nl) 30 ltac:(vmr) (hex2_ctext _ T2) ltac:(vmr)).
  assert (C1 : ctext 40 (cstr "    </SlaveInformation>" ++ nl ++ nl)) by lit. dline Hd C1.
  destruct (counter_alike m2 b _ _ _ "0" (x_status x) (x_type1 x) (x_val1 x) S2 ltac:(lia) Hd ltac:(lia) T2 T3 V1 V2 ltac:(lit))
    as (m3 & loc3 & d8 & c1 & n1 & F1 & G1 & S3 & K3 & L3 & H3 & N3). rewrite F1, G1. cbn [bind].
  destruct (counter_alike m3 loc3 _ _ _ "1" (x_status x) (x_type2 x) (x_val2 x) S3 ltac:(lia) H3 ltac:(lia) T2 T4 V3 V4 ltac:(lit))
    as (m4 & loc4 & d9 & c2 & n2 & F2 & G2 & S4 & K4 & L4 & H4 & N4). rewrite F2, G2. cbn [bind].
  assert (C2 : ctext 20 XML_CLOSE) by lit. clear Hd H3. dline H4 C2. rewrite (ddone _ _ _ H4). cbn [bind].
  eexists. exists m4. split; [reflexivity|]. split; [unfold open_text; rewrite <- !app_assoc; reflexivity|]. split; [exact S4|].
  apply (kept_trans _ _ m1); [intros s _; rewrite Eb; reflexivity|]. apply (kept_trans _ _ m2); [apply (kept_more _ _ _ _ K2); inlist|].
  apply (kept_trans _ _ m3); assumption.
Qed.
