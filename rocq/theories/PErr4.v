(** Proofs about the error texts: frame objects and telegrams. *)
From Coq Require Import String.
From Coq Require Import List.
From Verif Require Import CBase PBase CStr MFrame SWire SFrame PFrame MCodec PCodec MVar SVar MText MXml MErr SErr PErr PErr3.

Lemma pair_nozero b : is_byte b -> ~ In 0 (hex_pair b).
Proof.
  intros H. assert (G : (if in_dec Z.eq_dec 0 (hex_pair b) then false else true) = true).
  { revert b H. apply byte_cases. vm_compute. reflexivity. }
  destruct (in_dec Z.eq_dec 0 (hex_pair b)); [discriminate|assumption].
Qed.
Lemma app_nozero (a b : list Z) : ~ In 0 a -> ~ In 0 b -> ~ In 0 (a ++ b).
Proof. intros Ha Hb H. apply in_app_or in H. destruct H; auto. Qed.
Lemma checksum_nozero k s : is_byte k -> is_byte s -> ~ In 0 (checksum_text k s).
Proof.
  intros Hk Hs. unfold checksum_text. repeat apply app_nozero; try (apply pair_nozero; assumption); nozero.
Qed.
Lemma say_spec e m : List.length e = 512%nat -> ~ In 0 m -> { e' | say e m = Ok e' /\ says e' m }.
Proof. intros He Hm. destruct (say e m) as [e'|] eqn:E.
  - exists e'. split; [reflexivity|]. destruct (say_ok e m He Hm) as (e1 & E1 & H). congruence.
  - exfalso. destruct (say_ok e m He Hm) as (e1 & E1 & H). congruence.
Qed.
Ltac saying H := match goal with
  | |- context [say ?e ?m] => destruct (say_spec e m) as [? [H ?]]; [assumption|repeat apply app_nozero; try (apply pair_nozero; assumption); try nozero|rewrite H; cbn [bind]]
  end.

Definition verified (e : list Z) (f : frame) (v : Z) (e' : list Z) : Prop :=
  (v <> -1 /\ e' = e /\ forall m, ~ object_fault f m) \/ (v = -1 /\ exists m, object_fault f m /\ says e' m).

Lemma tail_verified e f s : List.length e = 512%nat -> is_byte (checksum f) -> start_ok f -> code_ok f -> length_ok f ->
  calc_checksum f = Ok s -> s = sum_field f ->
  exists v e', verify_tail_e e f = Ok (v, e') /\ verify_tail f = Ok v /\ verified e f v e'.
Proof.
  intros He Hk H1 H2 H3 Hs Es. unfold verify_tail_e, verify_tail.
  destruct (Z.eqb_spec (stop f) 22) as [E|E]; cbn [negb].
  2:{ saying S1. do 2 eexists. split; [reflexivity|]. split; [reflexivity|]. right. split; [reflexivity|].
      eexists. split; [apply OF_stop; assumption|eassumption]. }
  rewrite Hs. cbn [bind].
  assert (Hb : is_byte s). { rewrite Es. unfold sum_field, is_byte. destruct (ftype f =? 2); apply Z.mod_pos_bound; lia. }
  destruct (Z.eqb_spec (checksum f) s) as [E1|E1]; cbn [negb].
  { do 2 eexists. split; [reflexivity|]. split; [reflexivity|]. left. split; [lia|]. split; [reflexivity|].
    intros m X. rewrite Es in E1. destruct X; try contradiction; unfold length_ok, start_ok, long_kind in *; cbn [In] in *; intuition lia. }
  rewrite !p2x_pair by assumption. fold (checksum_text (checksum f) s).
  destruct (say_spec e (checksum_text (checksum f) s) He (checksum_nozero _ _ Hk Hb)) as [e' [S1 S2]]. rewrite S1. cbn [bind].
  do 2 eexists. split; [reflexivity|]. split; [reflexivity|]. right. split; [reflexivity|].
  eexists. split; [|exact S2]. rewrite Es in E1 |- *. apply OF_sum; assumption.
Qed.

Lemma verify_names e f : List.length e = 512%nat -> frame_obj f -> frame_bytes f -> is_byte (ftype f) -> (ftype f = 4 -> 0 <= data_size f <= 252) ->
  exists v e', mbus_frame_verify_e e (Some f) = Ok (v, e') /\ mbus_frame_verify f = Ok v /\ verified e f v e'.
Proof.
  intros He Ho [Hb _] Ht Hd. rewrite !bytes_cons in Hb. destruct Hb as (_ & _ & _ & _ & Hc & _ & _ & Hk & _).
  unfold mbus_frame_verify_e, mbus_frame_verify, T_ACK, T_SHORT, T_CONTROL, T_LONG in *.
  assert (NO : forall m e', object_fault f m -> says e' m -> verified e f (-1) e').
  { intros m e' H1 H2. right. split; [reflexivity|]. eauto. }
  destruct (Z.eqb_spec (ftype f) 1) as [E0|E0].
  { destruct (start1 f =? 229); do 2 eexists; (split; [reflexivity|]); (split; [reflexivity|]); left; (split; [lia|]); (split; [reflexivity|]);
      intros m X; destruct X; unfold length_ok, start_ok, long_kind in *; cbn [In] in *; intuition lia. }
  destruct (Z.eqb_spec (ftype f) 2) as [Es|Es].
  { destruct (Z.eqb_spec (start1 f) 16) as [E1|E1]; cbn [negb].
    2:{ saying S1. do 2 eexists. split; [reflexivity|]. split; [reflexivity|]. eapply NO; [|eassumption].
        apply OF_start; [cbn; auto|]. unfold start_ok, long_kind. intuition lia. }
    assert (SO : start_ok f) by (left; auto).
    destruct (ctrl_short_ok (control f)) eqn:E2; cbn [negb].
    2:{ rewrite p2x_pair by assumption. saying S1. do 2 eexists. split; [reflexivity|]. split; [reflexivity|]. eapply NO; [|eassumption].
        apply OF_code; [exact SO|]. unfold code_ok, long_kind. intros [[_ X]|[X _]]; [|lia]. apply ctrl_short_spec in X. congruence. }
    apply ctrl_short_spec in E2.
    apply (tail_verified e f ((control f + address f) mod 256)); try assumption; [left; auto|left; exact Es|apply calc_checksum_short; exact Es|].
    unfold sum_field. rewrite Es. reflexivity. }
  destruct ((ftype f =? 3) || (ftype f =? 4)) eqn:E34.
  { assert (LK : long_kind f) by (unfold long_kind; lia).
    destruct (negb (start1 f =? 104) || negb (start2 f =? 104)) eqn:E1.
    { saying S1. do 2 eexists. split; [reflexivity|]. split; [reflexivity|]. eapply NO; [|eassumption].
      apply OF_start; [cbn; unfold long_kind in LK; lia|]. unfold start_ok. intros [?|?]; lia. }
    assert (SO : start_ok f) by (right; split; [exact LK|lia]).
    destruct (ctrl_long_ok (control f)) eqn:E2; cbn [negb].
    2:{ rewrite p2x_pair by assumption. saying S1. do 2 eexists. split; [reflexivity|]. split; [reflexivity|]. eapply NO; [|eassumption].
        apply OF_code; [exact SO|]. unfold code_ok, long_kind. intros [[X _]|[_ X]]; [lia|]. apply ctrl_long_spec in X. congruence. }
    apply ctrl_long_spec in E2. assert (CO : code_ok f) by (right; auto).
    destruct (Z.eqb_spec (length1 f) (length2 f)) as [E3|E3]; cbn [negb].
    2:{ saying S1. do 2 eexists. split; [reflexivity|]. split; [reflexivity|]. eapply NO; [|eassumption]. apply OF_lengths; assumption. }
    assert (LF : calc_length f = length_field f).
    { unfold calc_length, length_field, payload_of, T_CONTROL, T_LONG, u8. destruct (Z.eqb_spec (ftype f) 3) as [->|].
      - reflexivity.
      - destruct (Z.eqb_spec (ftype f) 4) as [E4|]; [|lia]. specialize (Hd E4). unfold frame_obj, DATA_LEN in Ho.
        rewrite firstn_length, Nat.min_l by lia. rewrite Z.mod_small by lia. lia. }
    rewrite LF. destruct (Z.eqb_spec (length1 f) (length_field f)) as [E4|E4]; cbn [negb].
    2:{ saying S1. do 2 eexists. split; [reflexivity|]. split; [reflexivity|]. eapply NO; [|eassumption]. apply OF_length; assumption. }
    assert (LO : length_ok f) by (right; auto).
    apply (tail_verified e f (sum_field f)); try assumption; [|reflexivity].
    unfold sum_field, payload_of. destruct (Z.eqb_spec (ftype f) 2) as [|_]; [lia|].
    destruct (Z.eqb_spec (ftype f) 4) as [E5|E5].
    - apply calc_checksum_long; auto.
    - rewrite calc_checksum_control by (unfold T_CONTROL; unfold long_kind in LK; lia). cbn [total fold_right]. f_equal. f_equal. lia. }
  rewrite p2x_pair by assumption. saying S1. do 2 eexists. split; [reflexivity|]. split; [reflexivity|]. eapply NO; [|eassumption].
  apply OF_type. cbn [In]. lia.
Qed.

(** The text added by the parser in terms of the parser without texts. *)
Definition parse_text (e : list Z) (data : list Z) (r : Z) (f' : frame) : res (list Z) :=
  if r =? -1 then parse_null e
  else if r =? -2 then
    match data with
    | b0 :: l1 :: l2 :: _ => if (b0 =? 0x68) && ((l1 <? 3) || negb (l1 =? l2)) then say e (cstr "Invalid M-Bus frame length.")
                             else say e (cstr "Too much data in frame.")
    | _ => Ok e
    end
  else if r =? -3 then let* (v, e') := mbus_frame_verify_e e (Some f') in Ok e'
  else if r =? -4 then say e (cstr "Invalid M-Bus frame start.")
  else Ok e.
Lemma say_len e m : List.length e = 512%nat -> exists e', say e m = Ok e'.
Proof.
  intros He. unfold say, snprintf_s, ERR_SIZE.
  rewrite put_list_ok by (rewrite app_length, firstn_length; cbn [List.length]; lia). eauto.
Qed.
Ltac say_any := match goal with
  | He : List.length ?e = 512%nat |- context [say ?e ?m] => let S1 := fresh "S" in destruct (say_len e m He) as [? S1]; rewrite S1; cbn [bind]
  end.
Lemma verify_drop e f : List.length e = 512%nat ->
  match mbus_frame_verify_e e (Some f) with
  | Ok (v, e') => mbus_frame_verify f = Ok v /\ (v = 0 -> e' = e)
  | UB => mbus_frame_verify f = UB
  end.
Proof.
  intros He. unfold mbus_frame_verify_e, mbus_frame_verify.
  assert (T : match verify_tail_e e f with
              | Ok (v, e') => verify_tail f = Ok v /\ (v = 0 -> e' = e)
              | UB => verify_tail f = UB end).
  { unfold verify_tail_e, verify_tail. destruct (negb (stop f =? 22)). { say_any. split; [reflexivity|lia]. }
    destruct (calc_checksum f) as [s|]; cbn [bind]; [|reflexivity].
    destruct (negb (checksum f =? s)); [|auto]. say_any. split; [reflexivity|lia]. }
  destruct (ftype f =? T_ACK). { auto. }
  destruct (ftype f =? T_SHORT).
  { destruct (negb (start1 f =? 16)). { say_any. split; [reflexivity|lia]. }
    destruct (negb (ctrl_short_ok (control f))). { say_any. split; [reflexivity|lia]. }
    exact T. }
  destruct ((ftype f =? T_CONTROL) || (ftype f =? T_LONG)).
  { destruct (negb (start1 f =? 104) || negb (start2 f =? 104)). { say_any. split; [reflexivity|lia]. }
    destruct (negb (ctrl_long_ok (control f))). { say_any. split; [reflexivity|lia]. }
    destruct (negb (length1 f =? length2 f)). { say_any. split; [reflexivity|lia]. }
    destruct (negb (length1 f =? calc_length f)). { say_any. split; [reflexivity|lia]. }
    exact T. }
  say_any. split; [reflexivity|lia].
Qed.
Lemma parse_text_pos e data r f' : 0 <= r -> parse_text e data r f' = Ok e.
Proof.
  intros H. unfold parse_text. destruct (Z.eqb_spec r (-1)); [lia|]. destruct (Z.eqb_spec r (-2)); [lia|].
  destruct (Z.eqb_spec r (-3)); [lia|]. destruct (Z.eqb_spec r (-4)); [lia|]. reflexivity.
Qed.
Lemma verify_step e f data : List.length e = 512%nat ->
  (let* (v, e') := mbus_frame_verify_e e (Some f) in if negb (v =? 0) then Ok (-3, Some f, e') else Ok (0, Some f, e'))
  = (let* (r, f') := (let* v := mbus_frame_verify f in if negb (v =? 0) then Ok (-3, f) else Ok (0, f)) in
     let* e' := parse_text e data r f' in Ok (r, Some f', e')).
Proof.
  intros He. pose proof (verify_drop e f He) as V.
  destruct (mbus_frame_verify_e e (Some f)) as [[v e']|] eqn:Ev; [destruct V as [V V0]|]; rewrite V; cbn [bind]; [|reflexivity].
  destruct (Z.eqb_spec v 0) as [E|E]; cbn [negb bind].
  - rewrite parse_text_pos by lia. cbn [bind]. rewrite V0 by exact E. reflexivity.
  - unfold parse_text. cbn [Z.eqb Pos.eqb]. rewrite Ev. reflexivity.
Qed.
Lemma parse_e_eq e f data : List.length e = 512%nat ->
  mbus_parse_e e (Some f) (Some data)
  = let* (r, f') := mbus_parse f data in let* e' := parse_text e data r f' in Ok (r, Some f', e').
Proof.
  intros He. unfold mbus_parse_e, mbus_parse.
  destruct (Z.gtb_spec (Z.of_nat (List.length data)) 0) as [Hn|Hn].
  2:{ cbn [bind]. unfold parse_text. cbn [Z.eqb Pos.eqb]. reflexivity. }
  destruct data as [|b0 tl]; [cbn in Hn; lia|]. change (rd (b0 :: tl) 0) with (@Ok Z b0). cbn [bind].
  destruct (Z.eqb_spec b0 229) as [E5|E5].
  { cbn [bind]. rewrite parse_text_pos by lia. reflexivity. }
  destruct (Z.eqb_spec b0 16) as [E10|E10].
  { destruct (Z.ltb_spec (Z.of_nat (List.length (b0 :: tl))) 5) as [H5|H5].
    { cbn [bind]. rewrite parse_text_pos by (cbn [List.length] in *; lia). reflexivity. }
    destruct (negb (Z.of_nat (List.length (b0 :: tl)) =? 5)).
    { cbn [bind]. unfold parse_text. cbn [Z.eqb Pos.eqb]. destruct tl as [|l1 [|l2 t]]; [cbn in H5; lia|cbn in H5; lia|].
      rewrite E10. cbn [Z.eqb Pos.eqb andb]. reflexivity. }
    destruct (rd (b0 :: tl) 1) as [b1|]; cbn [bind]; [|reflexivity].
    destruct (rd (b0 :: tl) 2) as [b2|]; cbn [bind]; [|reflexivity].
    destruct (rd (b0 :: tl) 3) as [b3|]; cbn [bind]; [|reflexivity].
    destruct (rd (b0 :: tl) 4) as [b4|]; cbn [bind]; [|reflexivity].
    apply verify_step. exact He. }
  destruct (Z.eqb_spec b0 104) as [E68|E68].
  2:{ cbn [bind]. unfold parse_text. cbn [Z.eqb Pos.eqb]. reflexivity. }
  destruct (Z.ltb_spec (Z.of_nat (List.length (b0 :: tl))) 3) as [H3|H3].
  { cbn [bind]. rewrite parse_text_pos by (cbn [List.length] in *; lia). reflexivity. }
  destruct tl as [|b1 [|b2 t]]; [cbn in H3; lia|cbn in H3; lia|].
  change (rd (b0 :: b1 :: b2 :: t) 1) with (@Ok Z b1). change (rd (b0 :: b1 :: b2 :: t) 2) with (@Ok Z b2). cbn [bind].
  destruct (Z.ltb_spec b1 3) as [L3|L3].
  { cbn [bind]. unfold parse_text. cbn [Z.eqb Pos.eqb]. rewrite E68. destruct (Z.ltb_spec b1 3); [|lia]. cbn [Z.eqb Pos.eqb andb orb]. reflexivity. }
  destruct (Z.eqb_spec b1 b2) as [L4|L4]; cbn [negb].
  2:{ cbn [bind]. unfold parse_text. cbn [Z.eqb Pos.eqb]. rewrite E68. destruct (Z.ltb_spec b1 3); [lia|].
      destruct (Z.eqb_spec b1 b2); [contradiction|]. cbn [Z.eqb Pos.eqb andb orb negb]. reflexivity. }
  destruct (Z.ltb_spec (Z.of_nat (List.length (b0 :: b1 :: b2 :: t))) (6 + b1)) as [L5|L5].
  { cbn [bind]. rewrite parse_text_pos by (cbn [List.length] in *; lia). reflexivity. }
  destruct (Z.gtb_spec (Z.of_nat (List.length (b0 :: b1 :: b2 :: t))) (6 + b1)) as [L6|L6].
  { cbn [bind]. unfold parse_text. cbn [Z.eqb Pos.eqb]. rewrite E68. destruct (Z.ltb_spec b1 3); [lia|].
    destruct (Z.eqb_spec b1 b2); [|contradiction]. cbn [Z.eqb Pos.eqb andb orb negb]. reflexivity. }
  set (data := b0 :: b1 :: b2 :: t) in *.
  destruct (rd data 3) as [b3|]; cbn [bind]; [|reflexivity].
  destruct (rd data 4) as [b4|]; cbn [bind]; [|reflexivity].
  destruct (rd data 5) as [b5|]; cbn [bind]; [|reflexivity].
  destruct (rd data 6) as [b6|]; cbn [bind]; [|reflexivity].
  match goal with |- context [copy_loop ?a ?b ?c ?d ?x] => destruct (copy_loop a b c d x) as [d'|]; cbn [bind]; [|reflexivity] end.
  destruct (rd data (List.length data - 2)) as [ck|]; cbn [bind]; [|reflexivity].
  destruct (rd data (List.length data - 1)) as [st|]; cbn [bind]; [|reflexivity].
  apply verify_step. exact He.
Qed.

Lemma object_fault_once f m m' : object_fault f m -> object_fault f m' -> m = m'.
Proof.
  intros H H'. destruct H; destruct H'; try reflexivity; try contradiction; exfalso;
    unfold length_ok, code_ok, start_ok, long_kind in *; cbn [In] in *; intuition (congruence || lia).
Qed.

(** A frame object filled from received bytes. *)
Lemma long_bytes l b3 c a ci p ck st f : frame_bytes f -> bytes (long_form l l b3 c a ci p ck st) ->
  frame_bytes (long_frame l b3 c a ci p ck st f).
Proof.
  intros [_ Hf] H. unfold long_form in H. rewrite !bytes_cons, bytes_app, !bytes_cons in H.
  destruct H as (H0 & H1 & H2 & H3 & H4 & H5 & H6 & H7 & H8 & H9 & _).
  split; cbn [start1 length1 length2 start2 control address ctrl_info checksum stop fdata long_frame].
  - rewrite !bytes_cons. repeat (split; [assumption|]). constructor.
  - rewrite bytes_app. split; [assumption|]. apply bytes_skipn. assumption.
Qed.
Lemma short_bytes c a ck st f : frame_bytes f -> bytes [0x10; c; a; ck; st] -> frame_bytes (short_frame c a ck st f).
Proof.
  intros [Hf Hd] H. rewrite !bytes_cons in H. rewrite !bytes_cons in Hf. destruct H as (H0 & H1 & H2 & H3 & H4 & _).
  destruct Hf as (_ & A1 & A2 & A3 & _ & _ & A4 & _).
  split; cbn [start1 length1 length2 start2 control address ctrl_info checksum stop fdata short_frame]; [|assumption].
  rewrite !bytes_cons. repeat (split; [assumption|]). constructor.
Qed.

Lemma short_objects c a ck st f m : object_fault (short_frame c a ck st f) m <-> telegram_fault [0x10; c; a; ck; st] (-3) m.
Proof.
  split; intros H.
  - destruct H as [H|H H'|H H'|H H' K L|H H' K L M|H H' K L|H H' K L M];
      unfold start_ok, code_ok, length_ok, long_kind in *;
      cbn [ftype short_frame start1 start2 control address ctrl_info stop checksum length1 length2 T_SHORT In] in *.
    + intuition lia.
    + exfalso. apply H'. auto.
    + apply TF_short_control. intros X. apply H'. auto.
    + intuition lia.
    + intuition lia.
    + apply TF_short_stop; [intuition lia|assumption].
    + rewrite L. change (sum_field (short_frame c a ck st f)) with ((c + a) mod 256) in *. apply TF_short_sum; [intuition lia|assumption].
  - inversion H; subst; clear H; cbn [List.length] in *; try lia.
    + apply (OF_code (short_frame c a ck st f)); [left; split; reflexivity|]. intros [[_ X]|[[X|X] _]]; [contradiction|discriminate X|discriminate X].
    + apply OF_stop; [left; split; reflexivity|left; split; [reflexivity|assumption]|left; reflexivity|assumption].
    + apply (OF_sum (short_frame c a ck 22 f)); [left; split; reflexivity|left; split; [reflexivity|assumption]|left; reflexivity|reflexivity|assumption].
Qed.

Lemma long_payload l b3 c a ci p ck st f : payload_of (long_frame l b3 c a ci p ck st f) = p.
Proof.
  unfold payload_of, long_frame. cbn [ftype data_size fdata]. destruct p as [|x p]; [reflexivity|].
  rewrite Nat2Z.id, firstn_app_exact by reflexivity. cbn [List.length]. destruct (Z.eqb_spec (Z.of_nat (S (List.length p))) 0); [lia|]. reflexivity.
Qed.
Lemma long_kind_long l b3 c a ci p ck st f : long_kind (long_frame l b3 c a ci p ck st f).
Proof. unfold long_kind, long_frame. cbn [ftype]. destruct (Z.of_nat (List.length p) =? 0); auto. Qed.
Lemma sum_long l b3 c a ci p ck st f : sum_field (long_frame l b3 c a ci p ck st f) = (c + a + ci + total p) mod 256.
Proof.
  unfold sum_field. rewrite long_payload. cbn [control address ctrl_info long_frame ftype].
  destruct (Z.of_nat (List.length p) =? 0); reflexivity.
Qed.

Lemma long_objects l b3 c a ci p ck st f m : Z.of_nat (List.length p) = l - 3 ->
  object_fault (long_frame l b3 c a ci p ck st f) m <-> telegram_fault (long_form l l b3 c a ci p ck st) (-3) m.
Proof.
  intros HL. pose proof (long_kind_long l b3 c a ci p ck st f) as LK. pose proof (long_payload l b3 c a ci p ck st f) as LP.
  pose proof (sum_long l b3 c a ci p ck st f) as LS.
  assert (N2 : ftype (long_frame l b3 c a ci p ck st f) <> 2) by (unfold long_kind in LK; lia).
  assert (LF : length_field (long_frame l b3 c a ci p ck st f) = l) by (unfold length_field; rewrite LP; lia).
  assert (P1 : start1 (long_frame l b3 c a ci p ck st f) = 0x68) by reflexivity.
  assert (P2 : start2 (long_frame l b3 c a ci p ck st f) = b3) by reflexivity.
  assert (P3 : control (long_frame l b3 c a ci p ck st f) = c) by reflexivity.
  assert (P4 : length1 (long_frame l b3 c a ci p ck st f) = l) by reflexivity.
  assert (P5 : length2 (long_frame l b3 c a ci p ck st f) = l) by reflexivity.
  assert (P6 : stop (long_frame l b3 c a ci p ck st f) = st) by reflexivity.
  assert (P7 : checksum (long_frame l b3 c a ci p ck st f) = ck) by reflexivity.
  set (g := long_frame l b3 c a ci p ck st f) in *. clearbody g.
  assert (SO : start_ok g <-> b3 = 0x68) by (unfold start_ok; rewrite P1, P2; tauto).
  assert (CO : code_ok g <-> long_code c) by (unfold code_ok; rewrite P3; tauto).
  assert (LO : length_ok g) by (right; rewrite P4, P5, LF; auto).
  split; intros H.
  - destruct H as [H|H H'|H H'|H H' K L|H H' K L M|H H' K L|H H' K L M]; rewrite ?SO, ?CO, ?P4, ?P5, ?LF, ?P6, ?P7, ?LS, ?P3 in *.
    + exfalso. apply H. unfold long_kind in LK. destruct LK as [LK|LK]; rewrite LK; cbn [In]; auto 6.
    + apply TF_long_start; assumption.
    + rewrite H. apply TF_long_control; assumption.
    + contradiction.
    + contradiction.
    + rewrite H. apply TF_long_stop; assumption.
    + rewrite H, L. apply TF_long_sum; assumption.
  - remember (long_form l l b3 c a ci p ck st) as D eqn:E. remember (-3) as R eqn:ER.
    destruct H as [|b t A B C|t A|c' a' k s A|c' a' k s A B|c' a' k A B|l1 l2 t A|l' t A B|l' s2 c' a' ci' d k s A B
                  |l' c' a' ci' d k s A B|l' c' a' ci' d k s A B C|l' c' a' ci' d k A B C];
      try discriminate ER; try discriminate E.
    + unfold long_form in E. injection E as -> _ -> -> -> -> E.
      apply OF_start; [unfold long_kind in LK; destruct LK as [LK|LK]; rewrite LK; cbn [In]; auto 6|]. rewrite SO. exact B.
    + unfold long_form in E. injection E as -> _ <- -> -> -> E.
      rewrite <- P3. apply OF_code; [apply SO; reflexivity|]. rewrite CO. exact B.
    + unfold long_form in E. injection E as -> _ <- -> -> -> E.
      destruct (app_inj_len _ _ _ _ E ltac:(lia)) as [-> E2]. injection E2 as -> ->.
      apply OF_stop; [apply SO; reflexivity|apply CO; exact B|exact LO|rewrite P6; exact C].
    + unfold long_form in E. injection E as -> _ <- -> -> -> E.
      destruct (app_inj_len _ _ _ _ E ltac:(lia)) as [-> E2]. injection E2 as -> <-.
      rewrite <- P7, <- LS. apply OF_sum; [apply SO; reflexivity|apply CO; exact B|exact LO|exact P6|rewrite P7, LS; exact C].
Qed.

Lemma fault_negative data r m : telegram_fault data r m -> r < 0.
Proof. intros H. destruct H; lia. Qed.

(** The parser's answer, its text and the faults. *)
Definition parsed_e (e data : list Z) (r : Z) (e' : list Z) : Prop :=
  (0 <= r /\ e' = e /\ forall r' m, ~ telegram_fault data r' m) \/
  (exists m, telegram_fault data r m /\ says e' m /\ forall r' m', telegram_fault data r' m' -> r' = r /\ m' = m).

Lemma verified_e e f data g : List.length e = 512%nat -> frame_obj g -> frame_bytes g -> is_byte (ftype g) ->
  (ftype g = 4 -> 0 <= data_size g <= 252) -> ftype g <> 1 ->
  (forall m, object_fault g m <-> telegram_fault data (-3) m) -> (forall r m, telegram_fault data r m -> r = -3) ->
  mbus_parse f data = (let* v := mbus_frame_verify g in Ok (if v =? 0 then 0 else -3, g)) ->
  exists r f' e', mbus_parse_e e (Some f) (Some data) = Ok (r, Some f', e') /\ mbus_parse f data = Ok (r, f') /\ parsed_e e data r e'.
Proof.
  intros He Ho Hb Ht Hd N1 HO H3 HP. rewrite parse_e_eq by exact He. rewrite HP.
  destruct (verify_names e g He Ho Hb Ht Hd) as (v & e' & V1 & V2 & V3).
  rewrite V2. cbn [bind].
  destruct (Z.eqb_spec v 0) as [E|E].
  - rewrite parse_text_pos by lia. cbn [bind]. do 3 eexists. split; [reflexivity|]. split; [reflexivity|].
    left. split; [lia|]. split; [reflexivity|]. intros r' m X. pose proof (H3 _ _ X) as ->. apply HO in X.
    destruct V3 as [(_ & _ & V3)|(V3 & _)]; [exact (V3 _ X)|lia].
  - unfold parse_text. cbn [Z.eqb Pos.eqb]. rewrite V1. cbn [bind]. do 3 eexists. split; [reflexivity|]. split; [reflexivity|].
    destruct V3 as [(V3 & _)|(V3 & m & F & S1)].
    + exfalso. destruct (verify_spec g Ho Hd N1) as (r & R1 & R2 & _). assert (r = v) by congruence. lia.
    + right. exists m. split; [apply HO; exact F|]. split; [exact S1|]. intros r' m' X. pose proof (H3 _ _ X) as ->.
      split; [reflexivity|]. apply HO in X. exact (object_fault_once _ _ _ X F).
Qed.

Lemma parse_names e f data : List.length e = 512%nat -> frame_obj f -> frame_bytes f -> bytes data ->
  exists r f' e', mbus_parse_e e (Some f) (Some data) = Ok (r, Some f', e') /\ mbus_parse f data = Ok (r, f') /\ parsed_e e data r e'.
Proof.
  intros He Ho Hf Hb.
  assert (PLAIN : forall r f' m, mbus_parse f data = Ok (r, f') -> parse_text e data r f' = say e m -> ~ In 0 m ->
     telegram_fault data r m -> (forall r' m', telegram_fault data r' m' -> r' = r /\ m' = m) ->
     exists r f' e', mbus_parse_e e (Some f) (Some data) = Ok (r, Some f', e') /\ mbus_parse f data = Ok (r, f') /\ parsed_e e data r e').
  { intros r f' m H1 H2 H3 H4 H5. rewrite parse_e_eq by exact He. rewrite H1. cbn [bind]. rewrite H2.
    destruct (say_ok e m He H3) as (e' & S1 & S2). rewrite S1. cbn [bind]. do 3 eexists. split; [reflexivity|]. split; [reflexivity|].
    right. exists m. auto. }
  assert (FINE : forall r f', mbus_parse f data = Ok (r, f') -> 0 <= r -> (forall r' m, ~ telegram_fault data r' m) ->
     exists r f' e', mbus_parse_e e (Some f) (Some data) = Ok (r, Some f', e') /\ mbus_parse f data = Ok (r, f') /\ parsed_e e data r e').
  { intros r f' H1 H2 H3. rewrite parse_e_eq by exact He. rewrite H1. cbn [bind]. rewrite parse_text_pos by exact H2. cbn [bind].
    do 3 eexists. split; [reflexivity|]. split; [reflexivity|]. left. auto. }
  destruct data as [|b0 tl].
  { eapply PLAIN; [apply parse_nil|reflexivity|nozero|apply TF_empty|]. intros r' m' X. inversion X. auto. }
  destruct (Z.eq_dec b0 229) as [->|N5].
  { eapply FINE; [apply parse_ack|lia|]. intros r' m' X. inversion X; subst; congruence. }
  destruct (Z.eq_dec b0 16) as [->|N10].
  { destruct (Nat.lt_trichotomy (List.length tl) 4) as [H4|[H4|H4]].
    - eapply FINE; [apply parse_short_less; exact H4|lia|]. intros r' m' X. inversion X; subst; cbn in H4; try lia; congruence.
    - destruct tl as [|c [|a [|k [|s [|x tl]]]]]; try (cbn in H4; lia).
      apply (verified_e e f [16; c; a; k; s] (short_frame c a k s f)); try assumption.
      + apply short_bytes; assumption.
      + cbn. unfold is_byte, T_SHORT. lia.
      + cbn. discriminate.
      + cbn. discriminate.
      + intros m. apply short_objects.
      + intros r m X. inversion X; subst; cbn in *; try lia; congruence.
      + apply parse_short_exact.
    - eapply (PLAIN _ _ (cstr "Too much data in frame.")); [apply parse_short_more; exact H4| |nozero|apply TF_short_more; exact H4|].
      + destruct tl as [|x [|y tl]]; try (cbn in H4; lia). reflexivity.
      + intros r' m' X. inversion X; subst; cbn in H4; try lia; auto; congruence. }
  destruct (Z.eq_dec b0 104) as [->|N68].
  2:{ eapply PLAIN; [apply parse_bad_start; assumption|reflexivity|nozero|apply TF_start; assumption|].
      intros r' m' X. inversion X; subst; try congruence; auto. }
  destruct tl as [|l1 [|l2 tl]].
  { eapply FINE; [apply parse_long_tiny; cbn; lia|cbn; lia|]. intros r' m' X. inversion X; subst; congruence. }
  { eapply FINE; [apply parse_long_tiny; cbn; lia|cbn; lia|]. intros r' m' X. inversion X; subst; congruence. }
  pose proof (parse_long_hdr f l1 l2 tl) as HP. cbv zeta in HP.
  destruct (Z.ltb_spec l1 3) as [L3|L3].
  { eapply (PLAIN _ _ (cstr "Invalid M-Bus frame length.")); [exact HP| |nozero|apply TF_length; left; exact L3|].
    - unfold parse_text. cbn [Z.eqb Pos.eqb andb]. destruct (Z.ltb_spec l1 3); [|lia]. reflexivity.
    - intros r' m' X. inversion X; subst; try congruence; auto; try lia. }
  destruct (Z.eqb_spec l1 l2) as [L2|L2]; cbn [negb] in HP.
  2:{ eapply (PLAIN _ _ (cstr "Invalid M-Bus frame length.")); [exact HP| |nozero|apply TF_length; right; exact L2|].
    - unfold parse_text. cbn [Z.eqb Pos.eqb andb]. destruct (Z.ltb_spec l1 3); [lia|]. destruct (Z.eqb_spec l1 l2); [contradiction|]. reflexivity.
    - intros r' m' X. inversion X; subst; try congruence; auto. }
  subst l2.
  destruct (Z.ltb_spec (Z.of_nat (List.length tl)) (3 + l1)) as [L4|L4].
  { eapply FINE; [exact HP|lia|]. intros r' m' X. inversion X; subst; try congruence; try lia; cbn [List.length] in L4; rewrite ?app_length in L4; cbn [List.length] in L4; lia. }
  destruct (Z.gtb_spec (Z.of_nat (List.length tl)) (3 + l1)) as [L5|L5].
  { eapply (PLAIN _ _ (cstr "Too much data in frame.")); [exact HP| |nozero|apply TF_long_more; lia|].
    - unfold parse_text. cbn [Z.eqb Pos.eqb andb]. destruct (Z.ltb_spec l1 3); [lia|]. destruct (Z.eqb_spec l1 l1); [|contradiction]. reflexivity.
    - intros r' m' X. inversion X; subst; try congruence; auto; exfalso; try lia; cbn [List.length] in L5; rewrite ?app_length in L5; cbn [List.length] in L5; lia. }
  clear HP. destruct (long_split tl l1 L3 ltac:(lia)) as (b3 & c & a & ci & p & ck & st & -> & ->).
  pose proof Hb as Hb'. rewrite !bytes_cons in Hb'. destruct Hb' as (_ & Hl & _). unfold is_byte in Hl.
  assert (Hp : (List.length p <= 252)%nat) by lia.
  apply (verified_e e f _ (long_frame (Z.of_nat (List.length p) + 3) b3 c a ci p ck st f)); try assumption.
  - apply frame_obj_long; assumption.
  - apply long_bytes; assumption.
  - cbn [ftype long_frame]. unfold is_byte, T_CONTROL, T_LONG. destruct (Z.of_nat (List.length p) =? 0); lia.
  - intros _. cbn [data_size long_frame]. lia.
  - cbn [ftype long_frame]. unfold T_CONTROL, T_LONG. destruct (Z.of_nat (List.length p) =? 0); discriminate.
  - intros m. apply long_objects. lia.
  - intros r m X. inversion X; subst; try reflexivity; exfalso; try congruence; try lia;
      cbn [List.length] in *; rewrite ?app_length in *; cbn [List.length] in *; lia.
  - apply parse_long_exact; auto.
Qed.
