(** Proofs: the generated text is the document of SXml.v. *)
From Coq Require Import String.
From Coq Require Import List.
From Verif Require Import CBase PBase CStr MFrame MCodec MVar MText MXml SText SCodec SVar SXml PCodec PCodec2 PVar PVar2 PVar3 PXml PXml2 PText PText2 PText3.

Lemma escape_text_bound s : (length (escape_text s) <= 6 * length s)%nat.
Proof.
  induction s as [|c s IH]; [cbn; lia|]. unfold escape_text in *. cbn [flat_map]. rewrite app_length.
  pose proof (escape_len c). cbn [length]. lia.
Qed.
Lemma escape_text_chars s : c_chars s -> c_chars (escape_text s).
Proof.
  intros H. assert (S1 := escape_safe s H). clear H. revert S1. generalize (escape_text s). intros l H.
  induction H; repeat (constructor; [lia|]); try constructor; try lia; assumption.
Qed.
Lemma encoded_ok size s : c_chars s -> (length (escape_text s) + 6 <= size)%nat -> encoded size s = Ok (escape_text s).
Proof.
  intros Hc HL. unfold encoded.
  destruct (xml_encode_spec s [] (repeat 0 size) size Hc) as (k & d & K & E & F & _ & _ & _ & T).
  { rewrite repeat_length. lia. }
  rewrite E. cbn [bind]. specialize (T HL). subst k. rewrite firstn_all in F.
  rewrite <- (firstn_skipn (length (escape_text s) + 1) d), F, <- app_assoc. cbn [app].
  rewrite c_text_exact; [reflexivity|]. apply escape_text_chars. assumption.
Qed.

(** ** Rendering *)
Lemma blanks_app a b : blanks a -> blanks b -> blanks (a ++ b).
Proof. intros. apply Forall_app. auto. Qed.
Lemma renders_ws ws l ns : blanks ws -> renders l ns -> renders (ws ++ l) ns.
Proof.
  intros Hw H. destruct H as [w Hb|w name e t rest ns Hb Hn He Ht Hr|w name attrs inner ch rest ns Hb Hn Ha Hi Hr].
  - apply rn_nil. apply blanks_app; assumption.
  - rewrite app_assoc. apply rn_leaf; try assumption. apply blanks_app; assumption.
  - rewrite app_assoc. apply rn_elem; try assumption. apply blanks_app; assumption.
Qed.
Lemma renders_app a xs b ys : renders a xs -> renders b ys -> renders (a ++ b) (xs ++ ys).
Proof.
  intros H Hb. induction H as [w Hw|w name e t rest ns Hw Hn He Ht Hr IH|w name attrs inner ch rest ns Hw Hn Ha Hi _ Hr IH].
  - apply renders_ws; assumption.
  - change ((Leaf name t :: ns) ++ ys) with (Leaf name t :: (ns ++ ys)). replace ((w ++ [60] ++ name ++ [62] ++ e ++ [60; 47] ++ name ++ [62] ++ rest) ++ b)
      with (w ++ [60] ++ name ++ [62] ++ e ++ [60; 47] ++ name ++ [62] ++ (rest ++ b)) by (rewrite <- !app_assoc; reflexivity).
    apply rn_leaf; assumption.
  - change ((Elem name attrs ch :: ns) ++ ys) with (Elem name attrs ch :: (ns ++ ys)). replace ((w ++ [60] ++ name ++ attrs_text attrs ++ [62] ++ inner ++ [60; 47] ++ name ++ [62] ++ rest) ++ b)
      with (w ++ [60] ++ name ++ attrs_text attrs ++ [62] ++ inner ++ [60; 47] ++ name ++ [62] ++ (rest ++ b)) by (rewrite <- !app_assoc; reflexivity).
    apply rn_elem; assumption.
Qed.
Lemma renders_nil : renders [] [].
Proof. apply rn_nil. constructor. Qed.

Lemma safe_nonul l : safe_text l -> nonul l.
Proof. unfold nonul. induction 1; cbn [In]; intuition lia. Qed.
Lemma blanks_nonul l : blanks l -> nonul l.
Proof. intros H Hi. unfold blanks in H. rewrite Forall_forall in H. specialize (H 0 Hi). lia. Qed.
Lemma name_nonul l : name_ok l -> nonul l.
Proof. intros [_ H] Hi. rewrite Forall_forall in H. specialize (H 0 Hi). lia. Qed.
Lemma attrs_nonul attrs : Forall (fun nv => name_ok (fst nv) /\ safe_text (snd nv)) attrs -> nonul (attrs_text attrs).
Proof.
  induction 1 as [|[n v] attrs [H1 H2] _ IH]; [intros []|]. unfold attrs_text in *. cbn [flat_map fst snd] in *.
  rewrite nonul_app. split; [|assumption]. apply name_nonul in H1. apply safe_nonul in H2.
  unfold nonul in *. cbn [In]. rewrite in_app_iff. cbn [In]. rewrite in_app_iff. cbn [In]. intuition discriminate.
Qed.
Lemma renders_nonul l ns : renders l ns -> nonul l.
Proof.
  induction 1 as [w Hb|w name e t rest ns Hb Hn He Ht Hr IH|w name attrs inner ch rest ns Hb Hn Ha Hi IHi Hr IH].
  - apply blanks_nonul. assumption.
  - rewrite !nonul_app. apply blanks_nonul in Hb. apply name_nonul in Hn. apply safe_nonul in He.
    assert (A : nonul [60]) by (intros [|[]]; discriminate). assert (B : nonul [62]) by (intros [|[]]; discriminate).
    assert (C : nonul [60; 47]) by (intros [|[|[]]]; discriminate). tauto.
  - rewrite !nonul_app. apply blanks_nonul in Hb. apply name_nonul in Hn. apply attrs_nonul in Ha.
    assert (A : nonul [60]) by (intros [|[]]; discriminate). assert (B : nonul [62]) by (intros [|[]]; discriminate).
    assert (C : nonul [60; 47]) by (intros [|[|[]]]; discriminate). tauto.
Qed.

(** Names and texts. *)
Definition nameb (l : list Z) : bool :=
  negb (match l with [] => true | _ => false end) && forallb (fun c => ((65 <=? c) && (c <=? 90)) || ((97 <=? c) && (c <=? 122))) l.
Lemma nameb_ok l : nameb l = true -> name_ok l.
Proof.
  unfold nameb, name_ok. intros H. apply andb_prop in H. destruct H as [H1 H2]. split; [destruct l; [discriminate|congruence]|].
  apply Forall_forall. intros c Hc. rewrite forallb_forall in H2. specialize (H2 c Hc). cbv beta in H2. lia.
Qed.
Definition blanksb (l : list Z) : bool := forallb (fun c => (c =? 32) || (c =? 10)) l.
Lemma blanksb_ok l : blanksb l = true -> blanks l.
Proof. intros H. apply Forall_forall. intros c Hc. unfold blanksb in H. rewrite forallb_forall in H. specialize (H c Hc). cbv beta in H. lia. Qed.

Lemma plain_safe l : Forall plain l -> safe_text l.
Proof. induction 1 as [|c l H _ IH]; [constructor|]. unfold plain in H. apply st_char; try tauto; lia. Qed.
Lemma plain_not_control c : plain c -> is_control c = false.
Proof. unfold plain, is_control. lia. Qed.
Lemma plain_unescape l : Forall plain l -> unescape l = l.
Proof.
  intros H. rewrite <- (escape_text_plain l H) at 1. rewrite escape_unescape by (apply plain_chars; assumption).
  induction H as [|c l H _ IH]; [reflexivity|]. cbn [map]. unfold blank_control at 1. rewrite plain_not_control by assumption.
  rewrite IH. reflexivity.
Qed.
Lemma plain_shown l : Forall plain l -> shown l = l.
Proof.
  induction 1 as [|c l H _ IH]; [reflexivity|]. unfold shown in *. cbn [map]. unfold blank_control at 1.
  rewrite plain_not_control by assumption. rewrite IH. reflexivity.
Qed.

(** One element per line. *)
Lemma line_leaf ws name e t rest ns : blanksb ws = true -> nameb (cstr name) = true -> safe_text e -> unescape e = t ->
  renders rest ns ->
  renders (ws ++ [60] ++ cstr name ++ [62] ++ e ++ [60; 47] ++ cstr name ++ [62] ++ (nl ++ rest)) (leaf name t :: ns).
Proof.
  intros H1 H2 H3 H4 H5. apply rn_leaf; try assumption; [apply blanksb_ok; assumption|apply nameb_ok; assumption|].
  apply renders_ws; [apply blanksb_ok; reflexivity|assumption].
Qed.
Lemma line_plain ws name t rest ns : blanksb ws = true -> nameb (cstr name) = true -> Forall plain t -> renders rest ns ->
  renders (ws ++ [60] ++ cstr name ++ [62] ++ t ++ [60; 47] ++ cstr name ++ [62] ++ (nl ++ rest)) (leaf name t :: ns).
Proof. intros H1 H2 H3 H5. apply line_leaf; try assumption; [apply plain_safe; assumption|apply plain_unescape; assumption]. Qed.
Lemma line_shown ws name s rest ns : blanksb ws = true -> nameb (cstr name) = true -> c_chars s -> renders rest ns ->
  renders (ws ++ [60] ++ cstr name ++ [62] ++ escape_text s ++ [60; 47] ++ cstr name ++ [62] ++ (nl ++ rest)) (leaf name (shown s) :: ns).
Proof. intros H1 H2 H3 H5. apply line_leaf; try assumption; [apply escape_safe; assumption|apply escape_unescape; assumption]. Qed.

(** ** Numbers *)
Lemma decimal_fmt_d z : decimal z (fmt_d z).
Proof. split; [apply fmt_d_read|]. apply fmt_d_canonical. Qed.
Lemma fmt_d_plain z : Forall plain (fmt_d z).
Proof. apply num_plain, fmt_d_chars. Qed.
Lemma hex2_width n : 0 <= n < 256 -> hex_width 2 n (fmt_X2 n) /\ Forall plain (fmt_X2 n).
Proof.
  intros H. unfold fmt_X2. split; [split|].
  - pose proof (fmt_X_len n 1 ltac:(change (16 ^ Z.of_nat 2) with 256; lia)). rewrite zpad_len. lia.
  - split; [apply zpad_read; [lia|apply fmt_X_read; lia]|]. apply zpad_chars; [lia|]. apply fmt_X_capitals. lia.
  - apply zpad_chars; [unfold plain; lia|]. apply hex_plain, fmt_X_chars. lia.
Qed.
Lemma hex4_width a b : 0 <= a < 256 -> 0 <= b < 256 -> hex_width 4 (b + 256 * a) (fmt_X2 a ++ fmt_X2 b).
Proof.
  intros Ha Hb. destruct (hex2_width a Ha) as [(L1 & R1 & C1) _]. destruct (hex2_width b Hb) as [(L2 & R2 & C2) _].
  split; [rewrite app_length; lia|]. split; [|apply Forall_app; split; assumption].
  assert (G : forall l acc n, read_digits 16 l 0 = Some n -> read_digits 16 l acc = Some (acc * 16 ^ Z.of_nat (length l) + n)).
  { assert (G0 : forall l acc acc' n, read_digits 16 l acc' = Some n -> read_digits 16 l acc = Some ((acc - acc') * 16 ^ Z.of_nat (length l) + n)).
    { induction l as [|c l IH]; intros acc acc' n Hn; cbn [read_digits length] in *.
      - inversion Hn. change (16 ^ Z.of_nat 0) with 1. f_equal. lia.
      - destruct (digit_value c) as [d|]; [|discriminate]. destruct (d <? 16); [|discriminate].
        rewrite (IH _ _ _ Hn). f_equal. rewrite Nat2Z.inj_succ, Z.pow_succ_r by lia. ring. }
    intros l acc n Hn. rewrite (G0 l acc 0 n Hn). f_equal. lia. }
  assert (G2 : forall l m acc n, read_digits 16 l acc = Some n -> read_digits 16 (l ++ m) acc = read_digits 16 m n).
  { induction l as [|c l IH]; intros m acc n Hn; cbn [read_digits app] in *; [inversion Hn; reflexivity|].
    destruct (digit_value c) as [d|]; [|discriminate]. destruct (d <? 16); [|discriminate]. apply IH. assumption. }
  assert (N1 : fmt_X2 a <> []) by (intros E; rewrite E in L1; discriminate).
  assert (N2 : fmt_X2 b <> []) by (intros E; rewrite E in L2; discriminate).
  unfold read_nat in *. destruct (fmt_X2 a) as [|x xs]; [congruence|]. cbn [app]. change (x :: xs ++ fmt_X2 b) with ((x :: xs) ++ fmt_X2 b).
  rewrite (G2 _ _ _ _ R1). destruct (fmt_X2 b) as [|y ys]; [congruence|]. rewrite (G _ a _ R2), L2. f_equal.
  change (16 ^ Z.of_nat 2) with 256. lia.
Qed.

(** Lengths: literals are computed. *)
Ltac lits := repeat match goal with |- context [length (cstr ?s)] =>
  let n := eval vm_compute in (length (cstr s)) in change (length (cstr s)) with n end.
Ltac lens := rewrite ?app_length; lits; change (length nl) with 1%nat.

Lemma escape_ctext n t : ctext n t -> (length (escape_text t) <= 6 * n)%nat.
Proof. intros [_ H]. pose proof (escape_text_bound t). lia. Qed.
Lemma enc_small size n t : ctext n t -> (6 * n + 6 <= size)%nat -> encoded size t = Ok (escape_text t).
Proof. intros H HL. apply encoded_ok; [apply H|]. pose proof (escape_ctext n t H). lia. Qed.

Lemma fmt_d_byte b : is_byte b -> (length (fmt_d b) <= 4)%nat.
Proof. intros H. unfold is_byte in H. pose proof (fmt_d_len b 2 ltac:(change (10 ^ Z.of_nat 3) with 1000; lia)). lia. Qed.

(** ** Slave information *)
Lemma header_renders h : bytes h -> length h = 12%nat ->
  exists x n, header_ok h x /\ slave_node h n /\ renders x [n].
Proof.
  intros Hb Hl.
  destruct h as [|i0 [|i1 [|i2 [|i3 [|m0 [|m1 [|version [|medium [|access [|status [|s0 [|s1 [|]]]]]]]]]]]]]; try discriminate.
  clear Hl. assert (B : forall k, (k < 12)%nat -> is_byte (nth k [i0; i1; i2; i3; m0; m1; version; medium; access; status; s0; s1] 0)).
  { intros k Hk. apply bytes_nth; [assumption|exact Hk]. }
  pose proof (B 3%nat ltac:(lia)) as B3. pose proof (B 4%nat ltac:(lia)) as B4. pose proof (B 5%nat ltac:(lia)) as B5.
  pose proof (B 6%nat ltac:(lia)) as B6. pose proof (B 7%nat ltac:(lia)) as B7. pose proof (B 8%nat ltac:(lia)) as B8.
  pose proof (B 9%nat ltac:(lia)) as B9. pose proof (B 10%nat ltac:(lia)) as B10. pose proof (B 11%nat ltac:(lia)) as B11.
  cbn [nth] in *.
  unfold header_ok, mbus_data_variable_header_xml. rewrite bcd_hex_spec by (try assumption; cbn; lia).
  cbn [bind firstn]. unfold rd. cbn [nth_error bind].
  rewrite decode_manufacturer_spec by assumption. cbn [bind].
  replace (Z.shiftl m1 8 + m0) with (m0 + 256 * m1) by (rewrite Z.shiftl_mul_pow2 by lia; lia).
  set (u := m0 + 256 * m1). set (id := le [i0; i1; i2; i3]).
  assert (Hid : 0 <= id < 256 ^ 4).
  { unfold id. apply (le_bounds [i0; i1; i2; i3]). apply (bytes_firstn 4 _ Hb). }
  set (pn := product_name u version medium i3). set (md := mbus_data_variable_medium_lookup medium).
  assert (Cp : ctext 40 pn) by apply product_ctext. assert (Cm : ctext 40 md) by (apply medium_ctext; assumption).
  rewrite (enc_small 768 40 pn), (enc_small 768 40 md) by (try assumption; lia). cbn [bind].
  set (man := [(u / 1024) mod 32 + 64; (u / 32) mod 32 + 64; u mod 32 + 64]).
  assert (Hman : forall c, In c man -> 64 <= c <= 95).
  { unfold man. cbn [In]. pose proof (Z.mod_pos_bound (u / 1024) 32 ltac:(lia)). pose proof (Z.mod_pos_bound (u / 32) 32 ltac:(lia)).
    pose proof (Z.mod_pos_bound u 32 ltac:(lia)). intuition lia. }
  assert (Pman : Forall plain man). { apply Forall_forall. intros c Hc. specialize (Hman c Hc). unfold plain. lia. }
  assert (Eman : c_text [(u / 1024) mod 32 + 64; (u / 32) mod 32 + 64; u mod 32 + 64; 0] = man).
  { change ([(u / 1024) mod 32 + 64; (u / 32) mod 32 + 64; u mod 32 + 64; 0]) with (man ++ 0 :: []). apply c_text_exact.
    apply plain_chars. assumption. }
  rewrite Eman.
  destruct (hex2_width status B9) as [Hst Pst]. destruct (hex2_width s1 B11) as [Hs1 Ps1]. destruct (hex2_width s0 B10) as [Hs0 Ps0].
  assert (Psig : Forall plain (fmt_X2 s1 ++ fmt_X2 s0)) by (apply Forall_app; auto).
  match goal with |- context [Ok ?t = Ok _] => set (txt := t) end.
  set (node_ := Elem (cstr "SlaveInformation") []
          [leaf "Id" (fmt_X id); leaf "Manufacturer" man; leaf "Version" (fmt_d version);
           leaf "ProductName" (shown pn); leaf "Medium" (shown md);
           leaf "AccessNumber" (fmt_d access); leaf "Status" (fmt_X2 status); leaf "Signature" (fmt_X2 s1 ++ fmt_X2 s0)]).
  assert (R : renders txt [node_]).
  { set (inner := nl ++ cstr "        <Id>" ++ fmt_X id ++ cstr "</Id>" ++ nl ++
      cstr "        <Manufacturer>" ++ man ++ cstr "</Manufacturer>" ++ nl ++
      cstr "        <Version>" ++ fmt_d version ++ cstr "</Version>" ++ nl ++
      cstr "        <ProductName>" ++ escape_text pn ++ cstr "</ProductName>" ++ nl ++
      cstr "        <Medium>" ++ escape_text md ++ cstr "</Medium>" ++ nl ++
      cstr "        <AccessNumber>" ++ fmt_d access ++ cstr "</AccessNumber>" ++ nl ++
      cstr "        <Status>" ++ fmt_X2 status ++ cstr "</Status>" ++ nl ++
      cstr "        <Signature>" ++ (fmt_X2 s1 ++ fmt_X2 s0) ++ cstr "</Signature>" ++ nl ++ cstr "    ").
    assert (Et : txt = cstr "    " ++ [60] ++ cstr "SlaveInformation" ++ attrs_text [] ++ [62] ++ inner ++ [60; 47] ++ cstr "SlaveInformation" ++ [62] ++ (nl ++ nl)).
    { unfold txt, inner. rewrite <- !app_assoc. reflexivity. }
    rewrite Et. apply rn_elem.
    - apply blanksb_ok. reflexivity.
    - apply nameb_ok. reflexivity.
    - constructor.
    - unfold inner. apply renders_ws; [apply blanksb_ok; reflexivity|].
      apply (line_plain (cstr "        ") "Id"); [reflexivity|reflexivity|apply hex_plain, fmt_X_chars; lia|].
      apply (line_plain (cstr "        ") "Manufacturer"); [reflexivity|reflexivity|assumption|].
      apply (line_plain (cstr "        ") "Version"); [reflexivity|reflexivity|apply fmt_d_plain|].
      apply (line_shown (cstr "        ") "ProductName"); [reflexivity|reflexivity|apply Cp|].
      apply (line_shown (cstr "        ") "Medium"); [reflexivity|reflexivity|apply Cm|].
      apply (line_plain (cstr "        ") "AccessNumber"); [reflexivity|reflexivity|apply fmt_d_plain|].
      apply (line_plain (cstr "        ") "Status"); [reflexivity|reflexivity|assumption|].
      apply (line_plain (cstr "        ") "Signature"); [reflexivity|reflexivity|assumption|].
      apply rn_nil. apply blanksb_ok. reflexivity.
    - apply rn_nil. apply blanksb_ok. reflexivity. }
  exists txt, node_. split; [|split; [|assumption]].
  - split; [reflexivity|]. split; [apply (renders_nonul txt _ R)|].
    pose proof (escape_ctext 40 pn Cp). pose proof (escape_ctext 40 md Cm).
    pose proof (fmt_X_len id 7 ltac:(change (16 ^ Z.of_nat 8) with (256 ^ 4); lia)).
    pose proof (fmt_d_byte version B6). pose proof (fmt_d_byte access B8).
    destruct Hst as [Lst _]. destruct Hs1 as [Ls1 _]. destruct Hs0 as [Ls0 _].
    assert (Lm : length man = 3%nat) by reflexivity.
    unfold txt. lens. rewrite Lst, Ls1, Ls0, Lm. lia.
  - exists i0, i1, i2, i3, m0, m1, version, medium, access, status, s0, s1. split; [reflexivity|].
    exists (fmt_X id), man, (fmt_d version), (fmt_d access), (fmt_X2 status), (fmt_X2 s1 ++ fmt_X2 s0).
    split; [apply hexadecimal_fmt_X; lia|].
    split.
    { do 3 eexists. split; [reflexivity|]. do 3 (split; [apply Hman; cbn; tauto|]). unfold flag_id. fold u.
      change (2 ^ 15) with 32768. assert (Hu : 0 <= u) by (unfold u, is_byte in *; lia). clear - Hu. lia. }
    split; [apply decimal_fmt_d|]. split; [apply decimal_fmt_d|]. split; [assumption|].
    split; [apply hex4_width; assumption|reflexivity].
Qed.

(** ** Records *)
Definition entry_obj (e : entry) : rec := match e with EData a => obj a | EBlock more b => obj_block (tail_dif more) b end.
Lemma obj_difes a : wf_rec a -> has_difes (obj a) (a_dif a) (a_difes a).
Proof.
  intros W. assert (P := obj_parsed a W). destruct W as (_ & _ & _ & _ & L1 & _ & _ & _ & _ & _ & Hb). unfold enc_rec in Hb.
  inversion_clear Hb as [|? ? H1 H2]. apply bytes_app in H2. destruct H2 as [H2 _].
  unfold has_difes, obj. cbn [r_dif r_ndife r_dife]. split; [reflexivity|]. split; [reflexivity|].
  split; [unfold pad; apply firstn_app_exact; reflexivity|]. split; [apply PText2.pad_length; lia|]. auto.
Qed.
Lemma function_spec r : is_byte (r_dif r) -> mbus_data_record_function r = function_name (r_dif r) /\
  Forall plain (function_name (r_dif r)) /\ (length (function_name (r_dif r)) <= 24)%nat.
Proof.
  intros H. unfold mbus_data_record_function, function_name. pose proof (Z.mod_pos_bound (r_dif r / 16) 4 ltac:(lia)) as R.
  assert (E : Z.land (r_dif r) 0x30 = 16 * ((r_dif r / 16) mod 4)) by (revert H; generalize (r_dif r); intros b H; by_bytes b H).
  rewrite E. assert (C : In ((r_dif r / 16) mod 4) [0; 1; 2; 3]) by (cbn [In]; lia).
  assert (PL : forall l, forallb plainb l && (length l <=? 24)%nat = true -> Forall plain l /\ (length l <= 24)%nat).
  { intros l Hl. apply andb_prop in Hl. destruct Hl as [E1 E2]. split; [|apply Nat.leb_le; assumption].
    apply Forall_forall. intros c Hc. apply plainb_ok. rewrite forallb_forall in E1. auto. }
  cbn [In] in C. destruct C as [<-|[<-|[<-|[<-|[]]]]]; (split; [reflexivity|apply PL; vm_compute; reflexivity]).
Qed.
Lemma tariff_range ds : (length ds <= 10)%nat -> 0 <= tariff ds < 4 ^ 10.
Proof.
  intros H. unfold tariff. pose proof (digits_bound 4 (fun d => (d / 16) mod 4) ds ltac:(lia) ltac:(intros; lia)).
  assert (4 ^ Z.of_nat (length ds) <= 4 ^ 10) by (apply Z.pow_le_mono_r; lia). lia.
Qed.
Lemma subunit_range ds : (length ds <= 10)%nat -> 0 <= subunit ds < 2 ^ 10.
Proof.
  intros H. unfold subunit. pose proof (digits_bound 2 (fun d => (d / 64) mod 2) ds ltac:(lia) ltac:(intros; lia)).
  assert (2 ^ Z.of_nat (length ds) <= 2 ^ 10) by (apply Z.pow_le_mono_r; lia). lia.
Qed.
Lemma storage_range dif ds : 0 <= storage_number dif ds.
Proof.
  unfold storage_number. pose proof (digits_bound 16 (fun d => d mod 16) ds ltac:(lia) ltac:(intros; lia)). lia.
Qed.
Lemma fmt_d_digits z k : 0 <= z < 10 ^ Z.of_nat (S k) -> (length (fmt_d z) <= S k)%nat.
Proof.
  intros H. unfold fmt_d. destruct (Z.ltb_spec z 0); [lia|]. pose proof (fmt_u_len z k H). lia.
Qed.

(** The lines inside a record. *)
Lemma info_data a u v st_ : wf_rec a -> small_entry (EData a) ->
  mbus_data_record_unit (obj a) = Ok u -> mbus_data_record_value (obj a) = Ok v ->
  st_ = mbus_data_record_storage_number (obj a) ->
  exists info ns,
   (if r_dif (obj a) =? 0x0F then Ok (cstr "        <Function>Manufacturer specific</Function>" ++ nl)
     else if r_dif (obj a) =? 0x1F then Ok (cstr "        <Function>More records follow</Function>" ++ nl)
     else
       let* func := encoded 768 (mbus_data_record_function (obj a)) in
       let* storage := st_ in
       let* tariff := mbus_data_record_tariff (obj a) in
       let* dev := (if 0 <=? tariff then
                      let* d := mbus_data_record_device (obj a) in
                      Ok (cstr "        <Tariff>" ++ fmt_d tariff ++ cstr "</Tariff>" ++ nl ++
                          cstr "        <Device>" ++ fmt_d d ++ cstr "</Device>" ++ nl)
                    else Ok []) in
       let* u := mbus_data_record_unit (obj a) in
       let* unit := encoded 768 u in
       Ok (cstr "        <Function>" ++ func ++ cstr "</Function>" ++ nl ++
           cstr "        <StorageNumber>" ++ fmt_d storage ++ cstr "</StorageNumber>" ++ nl ++
           dev ++
           cstr "        <Unit>" ++ unit ++ cstr "</Unit>" ++ nl)) = Ok info /\
   entry_nodes (EData a) (ns ++ [leaf "Value" (shown v)]) /\ renders info ns /\
   (length info <= 190 + length (escape_text u))%nat.
Proof.
  intros W (S1 & S2 & S3) Hu Hv ->. pose proof (obj_difes a W) as HD. assert (P := obj_parsed a W).
  destruct (unit_ok (obj a) P) as (u' & Eu & Cu & Lu). rewrite Hu in Eu. apply ok_inj in Eu. subst u'.
  specialize (S3 u v Hu Hv).
  change (r_dif (obj a)) with (a_dif a). destruct (Z.eqb_spec (a_dif a) 0x0F) as [E|_]; [destruct W; congruence|].
  destruct (Z.eqb_spec (a_dif a) 0x1F) as [E|_]; [destruct W as (_ & W & _); congruence|].
  destruct (function_spec (obj a) ltac:(apply P)) as (F1 & F2 & F3). change (r_dif (obj a)) with (a_dif a) in *. rewrite F1.
  rewrite (encoded_ok 768) by (try (apply plain_chars; assumption); rewrite escape_text_plain by assumption; lia). cbn [bind].
  rewrite escape_text_plain by assumption.
  rewrite (storage_spec _ _ _ HD S1 S2). cbn [bind].
  rewrite Hu.
  assert (Enc : encoded 768 u = Ok (escape_text u)) by (apply encoded_ok; [assumption|lia]).
  pose proof (storage_range (a_dif a) (a_difes a)) as SR.
  pose proof (fmt_d_digits (storage_number (a_dif a) (a_difes a)) 9 ltac:(change (10 ^ Z.of_nat 10) with 10000000000; change (2 ^ 31) with 2147483648 in S2; lia)) as SL.
  destruct (a_difes a) as [|d0 ds] eqn:Ed.
  - destruct (no_dife (obj a) (a_dif a) HD) as [T _]. rewrite T. cbn [bind]. change (0 <=? -1) with false. cbv iota. cbn [bind]. rewrite Enc. cbn [bind].
    eexists. exists [leaf "Function" (function_name (a_dif a)); leaf "StorageNumber" (fmt_d (storage_number (a_dif a) [])); leaf "Unit" (shown u)].
    split; [reflexivity|]. split; [|split].
    + exists u, v, (fmt_d (storage_number (a_dif a) [])), []. rewrite Ed. split; [assumption|]. split; [assumption|].
      split; [apply decimal_fmt_d|]. split; [reflexivity|reflexivity].
    + apply (line_plain (cstr "        ") "Function"); [reflexivity|reflexivity|assumption|].
      apply (line_plain (cstr "        ") "StorageNumber"); [reflexivity|reflexivity|apply fmt_d_plain|].
      apply (line_shown (cstr "        ") "Unit" u []); [reflexivity|reflexivity|assumption|]. apply renders_nil.
    + lens. cbn [length]. lia.
  - assert (Lds : (length (d0 :: ds) <= 10)%nat) by (destruct W as (_ & _ & _ & _ & W & _); rewrite Ed in W; exact W).
    pose proof (tariff_range _ Lds) as TR. pose proof (subunit_range _ Lds) as UR.
    rewrite (tariff_spec _ _ _ HD ltac:(discriminate)). cbn [bind].
    destruct (Z.leb_spec 0 (tariff (d0 :: ds))); [|lia]. rewrite (device_spec _ _ _ HD ltac:(discriminate)). cbn [bind]. rewrite Enc. cbn [bind].
    set (tf := fmt_d (tariff (d0 :: ds))). set (dv := fmt_d (subunit (d0 :: ds))).
    eexists. exists [leaf "Function" (function_name (a_dif a)); leaf "StorageNumber" (fmt_d (storage_number (a_dif a) (d0 :: ds)));
                     leaf "Tariff" tf; leaf "Device" dv; leaf "Unit" (shown u)].
    split; [reflexivity|]. split; [|split].
    + exists u, v, (fmt_d (storage_number (a_dif a) (d0 :: ds))), [leaf "Tariff" tf; leaf "Device" dv]. rewrite Ed.
      split; [assumption|]. split; [assumption|]. split; [apply decimal_fmt_d|].
      split; [exists tf, dv; split; [apply decimal_fmt_d|split; [apply decimal_fmt_d|reflexivity]]|reflexivity].
    + rewrite <- !app_assoc.
      apply (line_plain (cstr "        ") "Function"); [reflexivity|reflexivity|assumption|].
      apply (line_plain (cstr "        ") "StorageNumber"); [reflexivity|reflexivity|apply fmt_d_plain|].
      apply (line_plain (cstr "        ") "Tariff"); [reflexivity|reflexivity|apply fmt_d_plain|].
      apply (line_plain (cstr "        ") "Device"); [reflexivity|reflexivity|apply fmt_d_plain|].
      apply (line_shown (cstr "        ") "Unit" u []); [reflexivity|reflexivity|assumption|]. apply renders_nil.
    + pose proof (fmt_d_digits (tariff (d0 :: ds)) 6 ltac:(change (10 ^ Z.of_nat 7) with 10000000; change (4 ^ 10) with 1048576 in TR; lia)) as TL.
      pose proof (fmt_d_digits (subunit (d0 :: ds)) 3 ltac:(change (10 ^ Z.of_nat 4) with 10000; change (2 ^ 10) with 1024 in UR; lia)) as DL.
      fold tf in TL. fold dv in DL. lens. cbn [length]. lia.
Qed.
Lemma info_block more b : exists info,
   (if r_dif (obj_block (tail_dif more) b) =? 0x0F then Ok (cstr "        <Function>Manufacturer specific</Function>" ++ nl)
     else if r_dif (obj_block (tail_dif more) b) =? 0x1F then Ok (cstr "        <Function>More records follow</Function>" ++ nl)
     else UB) = Ok info /\
   renders info [leaf "Function" (cstr (if more then "More records follow" else "Manufacturer specific"))] /\ (length info <= 60)%nat.
Proof.
  destruct more; cbn [obj_block r_dif tail_dif Z.eqb Pos.eqb]; eexists; (split; [reflexivity|]); (split; [|vm_compute; lia]).
  - apply (line_plain (cstr "        ") "Function" (cstr "More records follow") []); [reflexivity|reflexivity| |apply renders_nil].
    repeat (apply Forall_cons; [unfold plain; cbn; lia|]). apply Forall_nil.
  - apply (line_plain (cstr "        ") "Function" (cstr "Manufacturer specific") []); [reflexivity|reflexivity| |apply renders_nil].
    repeat (apply Forall_cons; [unfold plain; cbn; lia|]). apply Forall_nil.
Qed.

Lemma stamp_plain t : Forall (fun c => 45 <= c <= 58 \/ 65 <= c <= 90) t -> Forall plain t.
Proof. apply Forall_impl. unfold plain. lia. Qed.

(** Closing a record: opening tag, inner lines, end tag. *)
Lemma record_close i fc stamp ns info vt v :
  0 <= i < 10 ^ 9 -> -1 <= fc < 10 ^ 9 -> stamp_ok stamp -> renders info ns -> c_chars v -> vt = escape_text v ->
  let head :=
    if 0 <=? fc
    then cstr "    <DataRecord id=""" ++ fmt_d i ++ cstr """ frame=""" ++ fmt_d fc ++ cstr """>" ++ nl
    else cstr "    <DataRecord id=""" ++ fmt_d i ++ cstr """>" ++ nl in
  let st := match stamp with Some t => cstr "        <Timestamp>" ++ t ++ cstr "</Timestamp>" ++ nl | None => [] end in
  let txt := head ++ info ++ cstr "        <Value>" ++ vt ++ cstr "</Value>" ++ nl ++ st ++ cstr "    </DataRecord>" ++ nl ++ nl in
  exists n, record_node i fc stamp (ns ++ [leaf "Value" (shown v)]) n /\ renders txt [n] /\
    (length txt <= 150 + length info + length vt)%nat.
Proof.
  intros Hi Hf Hs HR Hv Ev. cbv zeta.
  set (head := if 0 <=? fc then _ else _). set (st := match stamp with Some _ => _ | None => _ end).
  set (attrs := if fc <? 0 then [(cstr "id", fmt_d i)] else [(cstr "id", fmt_d i); (cstr "frame", fmt_d fc)]).
  assert (Hh : head = cstr "    " ++ [60] ++ cstr "DataRecord" ++ attrs_text attrs ++ [62] ++ nl).
  { unfold head, attrs, attrs_text. destruct (Z.leb_spec 0 fc), (Z.ltb_spec fc 0); try lia; cbn [flat_map fst snd]; rewrite ?app_nil_r;
    do 6 (cbn [app]; rewrite <- ?app_assoc); reflexivity. }
  set (stn := match stamp with Some s => [leaf "Timestamp" s] | None => [] end).
  set (inner := nl ++ info ++ cstr "        <Value>" ++ vt ++ cstr "</Value>" ++ nl ++ st ++ cstr "    ").
  assert (Et : head ++ info ++ cstr "        <Value>" ++ vt ++ cstr "</Value>" ++ nl ++ st ++ cstr "    </DataRecord>" ++ nl ++ nl
    = cstr "    " ++ [60] ++ cstr "DataRecord" ++ attrs_text attrs ++ [62] ++ inner ++ [60; 47] ++ cstr "DataRecord" ++ [62] ++ (nl ++ nl)).
  { rewrite Hh. unfold inner. rewrite <- !app_assoc. reflexivity. }
  exists (Elem (cstr "DataRecord") attrs ((ns ++ [leaf "Value" (shown v)]) ++ stn)).
  split; [|split].
  - exists (fmt_d i), attrs. split; [apply decimal_fmt_d|]. split; [|reflexivity].
    unfold attrs. destruct (fc <? 0); [reflexivity|]. exists (fmt_d fc). split; [apply decimal_fmt_d|reflexivity].
  - rewrite Et. apply rn_elem.
    + apply blanksb_ok. reflexivity.
    + apply nameb_ok. reflexivity.
    + assert (Sf : forall z, safe_text (fmt_d z)) by (intros; apply plain_safe, fmt_d_plain).
      unfold attrs. destruct (fc <? 0); repeat (apply Forall_cons; [split; [apply nameb_ok; reflexivity|apply Sf]|]); apply Forall_nil.
    + unfold inner. apply renders_ws; [apply blanksb_ok; reflexivity|]. rewrite <- app_assoc. apply renders_app; [assumption|].
      rewrite Ev. cbn [app].
      apply (line_shown (cstr "        ") "Value" v); [reflexivity|reflexivity|assumption|].
      unfold st, stn. destruct stamp as [t|].
      * cbn [app]. rewrite <- !app_assoc. destruct Hs as [_ Hs].
        apply (line_plain (cstr "        ") "Timestamp" t); [reflexivity|reflexivity|apply stamp_plain; assumption|].
        apply rn_nil. apply blanksb_ok. reflexivity.
      * cbn [app]. apply rn_nil. apply blanksb_ok. reflexivity.
    + apply rn_nil. apply blanksb_ok. reflexivity.
  - assert (L1 : (length head <= 54)%nat).
    { pose proof (fmt_d_digits i 8 ltac:(change (10 ^ Z.of_nat 9) with (10 ^ 9); lia)).
      pose proof (fmt_d_len fc 8 ltac:(change (10 ^ Z.of_nat 9) with (10 ^ 9); lia)).
      unfold head. destruct (0 <=? fc); lens; lia. }
    assert (L2 : (length st <= 52)%nat).
    { unfold st. destruct stamp as [t|]; [|cbn; lia]. destruct Hs as [Hs _]. lens. lia. }
    rewrite Et. rewrite <- Et. lens. lia.
Qed.

Lemma record_renders e i fc stamp : wf_entry e -> small_entry e -> 0 <= i < 10 ^ 9 -> -1 <= fc < 10 ^ 9 -> stamp_ok stamp ->
  exists t ns n, mbus_data_variable_record_xml (entry_obj e) i fc stamp = Ok t /\ (length t <= 1011)%nat /\ nonul t /\
    entry_nodes e ns /\ record_node i fc stamp ns n /\ renders t [n].
Proof.
  intros W Sm Hi Hf Hs. destruct e as [a|more b]; cbn [entry_obj wf_entry] in *.
  - assert (P := obj_parsed a W). destruct (decode_ok (obj a) P) as (v & Ev & (Cv & Lv) & _).
    rewrite <- (value_ok (obj a) P) in Ev. destruct (unit_ok (obj a) P) as (u & Eu & Cu & Lu).
    destruct (info_data a u v _ W Sm Eu Ev eq_refl) as (info & ns & Ei & En & Er & Li).
    destruct Sm as (_ & _ & Sm). specialize (Sm u v Eu Ev).
    destruct (record_close i fc stamp ns info (escape_text v) v Hi Hf Hs Er Cv eq_refl) as (n & Hn & Rn & Ln).
    unfold mbus_data_variable_record_xml. rewrite Ei. cbn [bind]. rewrite Ev. cbn [bind].
    rewrite encoded_ok by (try assumption; lia). cbn [bind].
    eexists. exists (ns ++ [leaf "Value" (shown v)]), n. split; [reflexivity|]. split; [|split; [|split; [exact En|split; [exact Hn|exact Rn]]]].
    + cbv zeta in Ln. lia.
    + apply (renders_nonul _ _ Rn).
  - destruct W as [Lb Hb]. assert (P := block_parsed more b Lb Hb).
    assert (Ev : mbus_data_record_value (obj_block (tail_dif more) b) = Ok (hex_text (rev b))).
    { rewrite value_ok by assumption. rewrite decode_block; [|assumption|destruct more; reflexivity].
      cbn [obj_block r_len r_data]. unfold pad. rewrite firstn_app_exact by reflexivity. reflexivity. }
    assert (HP : Forall plain (hex_text (rev b))) by (apply hex_text_plain, Forall_rev; assumption).
    pose proof (hex_text_len (rev b)) as HL. rewrite rev_length in HL.
    destruct (info_block more b) as (info & Ei & Er & Li).
    destruct (record_close i fc stamp _ info (escape_text (hex_text (rev b))) (hex_text (rev b)) Hi Hf Hs Er (plain_chars _ HP) eq_refl) as (n & Hn & Rn & Ln).
    assert (Ei' : forall X : res (list Z), (if r_dif (obj_block (tail_dif more) b) =? 0x0F then Ok (cstr "        <Function>Manufacturer specific</Function>" ++ nl)
     else if r_dif (obj_block (tail_dif more) b) =? 0x1F then Ok (cstr "        <Function>More records follow</Function>" ++ nl)
     else X) = Ok info) by (intros X; rewrite <- Ei; destruct more; reflexivity).
    unfold mbus_data_variable_record_xml. rewrite Ei'. cbn [bind]. rewrite Ev. cbn [bind].
    rewrite encoded_ok; [|apply plain_chars; assumption|rewrite escape_text_plain by assumption; lia]. cbn [bind].
    rewrite plain_shown in Hn by assumption.
    eexists. do 2 eexists. split; [reflexivity|]. split; [|split; [|split; [|split; [exact Hn|exact Rn]]]].
    + cbv zeta in Ln. rewrite escape_text_plain in Ln |- * by assumption. lia.
    + apply (renders_nonul _ _ Rn).
    + reflexivity.
Qed.
