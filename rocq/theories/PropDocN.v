(** Theorems: what a normalised XML document tells about the telegram (C88). *)
From Coq Require Import String.
From Coq Require Import List.
From Coq Require Import QArith Qabs Lqa.
From Verif Require Import CBase PBase CStr MFrame MCodec MVar MText MXml MUnit MXmlN SText SCodec SVar SXml SUnit SNorm SXmlN SDoc SDocN.
From Verif Require Import PCodec PCodec2 PVar3 PText PXml3 PXml4 PropXml PropText PropVar PropXmlN PropUnit PDoc.
Local Open Scope Z_scope.

Lemma number_once x y t : shows_number x t -> shows_number y t -> close x y.
Proof.
  assert (B : forall q s n, shows_number (Num q) (cstr (if (s : bool) then "-" else "") ++ cstr (if (n : bool) then "nan" else "inf")) -> False).
  { intros q s n (k & R & _). destruct s, n; vm_compute in R; discriminate. }
  destruct x as [p|s n], y as [q|s' n'].
  - intros (n & R1 & A1 & N1) (n' & R2 & A2 & N2). rewrite R1 in R2. injection R2 as <-. cbn [close]. split; [|tauto].
    apply Qabs_Qle_condition in A1. apply Qabs_Qle_condition in A2. apply Qabs_Qle_condition. destruct A1, A2.
    assert (E : (1 # 1000000 == (1 # 2000000) + (1 # 2000000))%Q) by reflexivity. rewrite E. split; lra.
  - intros H. cbn [shows_number]. intros ->. exact (B _ _ _ H).
  - cbn [shows_number]. intros -> H. exact (B _ _ _ H).
  - cbn [shows_number close]. intros -> E. destruct s, n, s', n'; vm_compute in E; try discriminate E; auto.
Qed.
Lemma function_block d (m : bool) : function_name d = cstr (if m then "More records follow" else "Manufacturer specific") -> False.
Proof.
  unfold function_name. pose proof (Z.mod_pos_bound (d / 16) 4 ltac:(lia)) as A. set (x := (d / 16) mod 4) in *. clearbody x.
  assert (X : x = 0 \/ x = 1 \/ x = 2 \/ x = 3) by lia. destruct X as [-> |[-> |[-> | ->]]], m; vm_compute; discriminate.
Qed.
Lemma meaning_once e1 e2 ns : wf_entry e1 -> wf_entry e2 -> meaning_entry e1 ns -> meaning_entry e2 ns -> same_normalised e1 e2.
Proof.
  intros W1 W2. destruct e1 as [a|m1 b1], e2 as [b|m2 b2]; cbn [meaning_entry same_normalised].
  - intros (m & c & st & td & v & M1 & U1 & S1 & V1 & T1 & ->) (m' & c' & st' & td' & v' & M2 & U2 & S2 & V2 & T2 & E).
    cbn [app] in E. injection E as EF ES ER. subst st'. pose proof (function_once _ _ EF) as FN. pose proof (decimal_once _ _ _ S1 S2) as EN.
    assert (K : forall ru qu, shown (m_unit m) = shown (m_unit m') -> shown (m_quantity m) = shown (m_quantity m') -> v = v' -> ru = 0 -> qu = 0 ->
      exists m0 m0' c0 c0', unit_of a = Some m0 /\ unit_of b = Some m0' /\ shown (m_unit m0) = shown (m_unit m0') /\
        shown (m_quantity m0) = shown (m_quantity m0') /\ means a c0 /\ means b c0' /\
        match c0, c0' with
        | Number x, Number x' => exists y y', in_base_unit a m0 x y /\ in_base_unit b m0' x' y' /\ close y y'
        | Text s, Text s' => shown s = shown s'
        | Number x, Text s => exists y, in_base_unit a m0 x y /\ shows_number y (shown s)
        | Text s, Number x => exists y, in_base_unit b m0' x y /\ shows_number y (shown s)
        end).
    { intros _ _ Eu Eq <- _ _. exists m, m', c, c'. do 4 (split; [assumption|]). split; [exact M1|]. split; [exact M2|].
      destruct c as [x|s], c' as [x'|s'].
      - destruct V1 as (y & Y1 & Y2), V2 as (z & Z1 & Z2). exists y, z. split; [exact Y1|]. split; [exact Z1|]. exact (number_once _ _ _ Y2 Z2).
      - destruct V1 as (y & Y1 & Y2). subst v. eauto.
      - destruct V2 as (y & Y1 & Y2). subst v. eauto.
      - congruence. }
    specialize (K 0 0). split; [exact FN|]. split; [exact EN|].
    destruct (a_difes a) as [|x1 xs1] eqn:D1, (a_difes b) as [|x2 xs2] eqn:D2.
    + subst td td'. cbn [app] in ER. injection ER as EU EQ EV. split; [tauto|]. split; [reflexivity|]. split; [reflexivity|]. apply K; auto.
    + exfalso. subst td. destruct T2 as (t & d & _ & _ & ->). cbn [app] in ER. injection ER as EU _. discriminate EU.
    + exfalso. subst td'. destruct T1 as (t & d & _ & _ & ->). cbn [app] in ER. injection ER as EU _. discriminate EU.
    + destruct T1 as (t1 & d1 & T1 & N1 & ->), T2 as (t2 & d2 & T2 & N2 & ->). cbn [app] in ER. injection ER as ET ED EU EQ EV. subst t2 d2.
      split; [split; discriminate|]. split; [exact (decimal_once _ _ _ T1 T2)|]. split; [exact (decimal_once _ _ _ N1 N2)|]. apply K; auto.
  - intros (m & c & st & td & v & _ & _ & _ & _ & _ & ->) (st' & _ & E). cbn [app] in E. injection E as EF _. exact (function_block _ m2 EF).
  - intros (st' & _ & ->) (m & c & st & td & v & _ & _ & _ & _ & _ & E). cbn [app] in E. injection E as EF _. exact (function_block _ m1 (eq_sym EF)).
  - intros (st & _ & ->) (st' & _ & E). injection E as EF _ EV. split.
    + destruct m1, m2; try reflexivity; discriminate EF.
    + destruct W1 as [_ B1], W2 as [_ B2].
      assert (X : rev b1 = rev b2) by (apply hex_text_inj; [apply Forall_rev; exact B1|apply Forall_rev; exact B2|exact EV]).
      rewrite <- (rev_involutive b1), <- (rev_involutive b2), X. reflexivity.
Qed.
Lemma norm_entries_once : forall es1 es2 i out, Forall wf_entry es1 -> Forall wf_entry es2 ->
  norm_entries meaning_entry es1 i out -> norm_entries meaning_entry es2 i out -> Forall2 same_normalised es1 es2.
Proof.
  induction es1 as [|e1 es1 IH]; intros [|e2 es2] i out W1 W2 H1 H2; cbn [norm_entries] in H1, H2.
  - constructor.
  - exfalso. destruct H2 as (n & ns & out' & E & _). congruence.
  - exfalso. destruct H1 as (n & ns & out' & E & _). congruence.
  - destruct H1 as (n & ns1 & out' & -> & N1 & R1 & H1), H2 as (n2 & ns2 & out2 & X & N2 & R2 & H2). assert (n2 = n /\ out2 = out') as [-> ->] by (split; congruence).
    inversion W1; inversion W2; subst. destruct (record_once i i None None None None ns1 ns2 n I I R1 R2) as (_ & _ & EN). cbn [ending] in EN. rewrite !app_nil_r in EN. subst ns2.
    constructor; [apply (meaning_once e1 e2 ns1); assumption|]. apply (IH es2 (i + 1) out'); assumption.
Qed.
Lemma norm_solid : forall es i out, norm_entries meaning_entry es i out -> Forall solid out.
Proof.
  induction es as [|e es IH]; intros i out H; cbn [norm_entries] in H; [subst; constructor|]. destruct H as (n & ns & out' & -> & E & (t & a & _ & _ & ->) & H).
  constructor; [|exact (IH _ _ H)]. rewrite app_nil_r. destruct e as [r|m b]; cbn [meaning_entry] in E.
  - destruct E as (m & c & st & td & v & _ & _ & _ & _ & T & ->). apply solid_elem; [discriminate|]. cbn [app]. apply Forall_cons; [exact I|]. apply Forall_cons; [exact I|].
    apply Forall_app. split; [|repeat (apply Forall_cons || apply Forall_nil); exact I].
    destruct (a_difes r); [subst td; constructor|]. destruct T as (t' & d & _ & _ & ->). repeat (apply Forall_cons || apply Forall_nil); exact I.
  - destruct E as (st & _ & ->). apply solid_elem; [discriminate|]. repeat (apply Forall_cons || apply Forall_nil); exact I.
Qed.

(** C88: two variable data replies within the limits of C61, all of whose records have a meaning, with the same
    normalised document come from slaves with the same identification and list the same number of records and blocks,
    which agree one by one in all that is shown; numbers agree to a millionth of the base unit. *)
Theorem C88_normalised :
  forall f1 h1 its1 t1 fd1 fd1' l1 f2 h2 its2 t2 fd2 fd2' l2 text,
  var_telegram f1 h1 its1 t1 -> Forall small_norm (entries its1 t1) -> Forall meaningful (entries its1 t1) ->
  var_telegram f2 h2 its2 t2 -> Forall small_norm (entries its2 t2) -> Forall meaningful (entries its2 t2) ->
  mbus_frame_data_parse f1 fd1 = Ok (0, fd1') -> mbus_frame_data_parse f2 fd2 = Ok (0, fd2') ->
  mbus_frame_data_xml_normalized fd1' = Ok (Some text, l1) -> mbus_frame_data_xml_normalized fd2' = Ok (Some text, l2) ->
  same_slave h1 h2 /\ Forall2 same_normalised (entries its1 t1) (entries its2 t2).
Proof.
  intros f1 h1 its1 t1 fd1 fd1' l1 f2 h2 its2 t2 fd2 fd2' l2 text T1 S1 M1 T2 S2 M2 P1 P2 X1 X2.
  destruct (C61_meaning_partial f1 h1 its1 t1 fd1 fd1' T1 S1 M1 P1) as (x1 & E1 & D1).
  destruct (C61_meaning_partial f2 h2 its2 t2 fd2 fd2' T2 S2 M2 P2) as (x2 & E2 & D2).
  rewrite X1 in E1. rewrite X2 in E2. assert (x1 = text) as -> by congruence. assert (x2 = text) as -> by congruence.
  destruct D1 as (b1 & s1 & r1 & -> & R1 & H1 & N1), D2 as (b2 & s2 & r2 & E & R2 & H2 & N2). apply app_inv_head in E. apply app_inv_head in E. subst b2.
  assert (X : Elem (cstr "MBusData") [] (s1 :: r1) = Elem (cstr "MBusData") [] (s2 :: r2)).
  { apply (text_once b1); try assumption; (apply solid_elem; [discriminate|]); (constructor; [eapply slave_solid; eassumption|eapply norm_solid; eassumption]). }
  assert (s2 = s1 /\ r2 = r1) as [-> ->] by (split; congruence).
  split; [exact (slave_once h1 h2 s1 (telegram_hbytes _ _ _ _ T1) (telegram_hbytes _ _ _ _ T2) H1 H2)|].
  apply (norm_entries_once _ _ 0 r1); try assumption; apply entries_wf; first [apply T1|apply T2].
Qed.
Print Assumptions C88_normalised.

(** 5 litres and 50 decilitres have the same normalised document. *)
Definition vol_its (vif v : Z) : list item := [Data (mkA 0x01 [] vif [] [] [v])].
Definition vol_frame (vif v : Z) : frame := reply (ex_header ++ enc_body (vol_its vif v) None) 0.
Example C88_normalised_nonvacuous :
  exists text, forall vif v, (vif, v) = (0x13, 5) \/ (vif, v) = (0x12, 50) ->
  var_telegram (vol_frame vif v) ex_header (vol_its vif v) None /\ Forall small_norm (entries (vol_its vif v) None) /\ Forall meaningful (entries (vol_its vif v) None) /\
  exists fd fd', mbus_frame_data_parse (vol_frame vif v) fd = Ok (0, fd') /\ mbus_frame_data_xml_normalized fd' = Ok (Some text, 0%nat).
Proof.
  match goal with |- exists t, _ => let y := eval vm_compute in (match mbus_frame_data_xml_normalized (mkFD (dvar_of ex_header (vol_its 0x13 5) None) (mkFix [] 0 0 0 0 [] []) DT_VARIABLE 0) with Ok (Some t, _) => t | _ => [] end) in exists y end.
  assert (T : forall vif v, (vif, v) = (0x13, 5) \/ (vif, v) = (0x12, 50) -> var_telegram (vol_frame vif v) ex_header (vol_its vif v) None).
  { intros vif v [E|E]; injection E as -> ->; (split; [|split; [reflexivity|split; [|split; [exact I|split; [unfold is_byte; cbn; lia|split; reflexivity]]]]];
      [apply reply_carries; [vm_compute; repeat constructor; discriminate|unfold is_byte; lia|vm_compute; lia]
      |constructor; [|constructor]; wf_example]). }
  intros vif v H. split; [exact (T vif v H)|]. split; [|split].
  - destruct H as [E|E]; injection E as -> ->; (apply Forall_cons; [|apply Forall_nil]; cbn [small_norm a_difes a_dif]; split; [cbn; lia|]; split; [vm_compute; reflexivity|];
      intros n lost E; vm_compute in E; apply ok_inj in E; injection E as <- _; vm_compute; lia).
  - destruct H as [E|E]; injection E as -> ->; (apply Forall_cons; [|apply Forall_nil]; cbn [meaningful]).
    + exists (mkM (1 # 1000) (cstr "m^3") (cstr "Volume")), (Number (Num (inject_Z 5))). split; [apply (me_int (mkA 0x01 [] 0x13 [] [] [5])); left; reflexivity|].
      split; [reflexivity|]. split; [unfold wrong_code; cbn; intuition discriminate|discriminate].
    + exists (mkM (1 # 10000) (cstr "m^3") (cstr "Volume")), (Number (Num (inject_Z 50))). split; [apply (me_int (mkA 0x01 [] 0x12 [] [] [50])); left; reflexivity|].
      split; [reflexivity|]. split; [unfold wrong_code; cbn; intuition discriminate|discriminate].
  - exists (mkFD (dvar_of [] [] None) (mkFix [] 0 0 0 0 [] []) 0 0). eexists. split; [apply (telegram_parse _ _ _ _ _ (T vif v H))|].
    destruct H as [E|E]; injection E as -> ->; vm_compute; reflexivity.
Qed.
