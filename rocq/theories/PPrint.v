(** Proofs about the printing functions. *)
From Coq Require Import String.
From Coq Require Import List.
From Verif Require Import CBase PBase CStr MFrame SWire SFrame PFrame PFrame2 PRecv PReq2 MHex MCodec SCodec PCodec PCodec2 MVar SVar MText SText PText PText2 PText3 MXml SXml PXml3 SName PropName SHex PropHex MMon MPrint SPrint.
Local Open Scope Z_scope.

Lemma says_app a x b y : says a x -> says b y -> says (a ++ b) (x ++ y).
Proof.
  intros H. revert b y. induction H as [|s ps t H IH|v s ps t Hs H IH|ps t H IH]; intros b y Hb; [assumption| | |]; cbn [app].
  - rewrite <- app_assoc. apply say_word. auto.
  - rewrite <- app_assoc. apply say_value; auto.
  - apply say_line. auto.
Qed.
Lemma say_nl ps t : says ps t -> says (NL :: ps) (nl ++ t).
Proof. exact (say_line ps t). Qed.
Lemma say_nl_end : says [NL] nl.
Proof. exact (say_line [] [] say_end). Qed.

Lemma shows_byte n : is_byte n -> shows (Byte n) (fmt_X2 n).
Proof. intros H. apply hex2_width. exact H. Qed.
Lemma shows_dec n : shows (Dec n) (fmt_d n).
Proof. apply decimal_fmt_d. Qed.
Lemma shows_decu n : 0 <= n -> shows (Dec n) (fmt_u n).
Proof. intros H. pose proof (decimal_fmt_d n) as D. unfold fmt_d in D. destruct (Z.ltb_spec n 0); [lia|]. exact D. Qed.
Lemma shows_hex n : 0 <= n -> shows (Hex n) (fmt_X n).
Proof. intros H. apply hexadecimal_fmt_X. assumption. Qed.
Lemma shows_yes b d : is_byte d -> b = 0x80 -> shows (yes (128 <=? d)) (yes_no (negb (Z.land d b =? 0))).
Proof.
  intros H ->. unfold yes, yes_no. cbn. rewrite land_80 by assumption. destruct (Z.ltb_spec d 128), (Z.leb_spec 128 d); try lia; reflexivity.
Qed.

(** A byte in two digits is a dump of it. *)
Lemma hex2_two b : is_byte b -> exists c0 c1, fmt_X2 b = [c0; c1] /\ read_nat 16 [c0; c1] = Some b /\ c0 <> 10 /\ c1 <> 10.
Proof.
  intros H. destruct (hex2_width b H) as [(Hl & Hr & _) _]. destruct (fmt_X2 b) as [|c0 [|c1 [|]]] eqn:E; cbn in Hl; try discriminate.
  exists c0, c1. split; [reflexivity|]. split; [assumption|]. cbn in Hr.
  split; intros ->; [discriminate Hr|]. destruct (digit_value c0); [|discriminate]. destruct (_ <? 16); discriminate.
Qed.
Lemma dump_after bs : bytes bs -> shows (Bytes bs) (flat_map (fun b => fmt_X2 b ++ cstr " ") bs).
Proof.
  induction 1 as [|b bs Hb _ [IH1 IH2]]; [split; [constructor|intros []]|]. destruct (hex2_two b Hb) as (c0 & c1 & E & R & N0 & N1). cbn [flat_map]. rewrite E. split.
  - apply ht_byte; [assumption|]. apply ht_white; [left; reflexivity|assumption].
  - cbn. intros [?|[?|[?|?]]]; try congruence. contradiction.
Qed.
Lemma dump_before bs : bytes bs -> shows (Bytes bs) (flat_map (fun b => cstr " " ++ fmt_X2 b) bs).
Proof.
  induction 1 as [|b bs Hb _ [IH1 IH2]]; [split; [constructor|intros []]|]. destruct (hex2_two b Hb) as (c0 & c1 & E & R & N0 & N1). cbn [flat_map]. rewrite E. split.
  - apply ht_white; [left; reflexivity|]. apply ht_byte; assumption.
  - cbn. intros [?|[?|[?|?]]]; try congruence. contradiction.
Qed.

Ltac report :=
  repeat first
    [ apply say_nl_end | apply say_nl | apply say_word
    | apply say_value; [first [apply shows_byte; assumption | apply shows_dec | apply shows_yes; [assumption|reflexivity] | reflexivity | idtac] | ] ].

(** ** Telegrams *)
Lemma print_one f t : frame_obj f -> delimiters f -> denotes f t -> valid t -> (length (wire t) <= 256)%nat ->
  exists f' line, (forall fs, print_loop (f :: fs) = let* (r, x, fs'') := print_loop fs in Ok (r, line ++ x, f' :: fs'')) /\ says (telegram_line t) line.
Proof.
  intros Ho Hd Hden Hv Hl.
  eexists _, _. split.
  { intros fs. cbn [print_loop]. rewrite (pack_wire f t) by (auto; rewrite ?repeat_length; unfold PRINT_BUFF; lia).
    cbn [bind]. destruct (Z.eqb_spec (Z.of_nat (length (wire t))) (-1)); [lia|].
    rewrite Nat2Z.id, firstn_app_exact by reflexivity. reflexivity. }
  assert (Hk : ftype f = kind_no t) by (destruct t; cbn in Hden; intuition). rewrite Hk.
  unfold telegram_line. report. apply dump_after. apply wire_bytes. assumption.
Qed.
Lemma print_chain fs ts : Forall2 (fun f t => frame_obj f /\ delimiters f /\ denotes f t /\ valid t /\ (length (wire t) <= 256)%nat) fs ts ->
  exists x fs', print_loop fs = Ok (0, x, fs') /\ says (flat_map telegram_line ts) x.
Proof.
  induction 1 as [|f t fs ts (H1 & H2 & H3 & H4 & H5) _ (x & fs' & E & S)].
  - exists [], []. split; [reflexivity|constructor].
  - destruct (print_one f t H1 H2 H3 H4 H5) as (f' & line & P & Sl). exists (line ++ x), (f' :: fs'). rewrite P, E. split; [reflexivity|].
    apply says_app; assumption.
Qed.

(** ** Reading a printed line *)
Lemma cut_first (c : Z) a b a' b' : ~ In c a -> ~ In c a' -> a ++ c :: b = a' ++ c :: b' -> a = a' /\ b = b'.
Proof.
  revert a'. induction a as [|x a IH]; intros [|x' a'] N N' E; cbn in *.
  - injection E as ->. split; reflexivity.
  - injection E as -> _. exfalso. apply N'. left. reflexivity.
  - injection E as -> _. exfalso. apply N. left. reflexivity.
  - injection E as -> E. destruct (IH a') as [-> ->]; auto.
Qed.
Lemma digits_chars base l acc n : read_digits base l acc = Some n -> Forall (fun c => 48 <= c <= 57 \/ 65 <= c <= 70 \/ 97 <= c <= 102) l.
Proof.
  revert acc. induction l as [|c l IH]; intros acc H; constructor; cbn in H; destruct (digit_value c) as [d|] eqn:D; try discriminate.
  - unfold digit_value in D. destruct (Z.leb_spec 48 c), (Z.leb_spec c 57), (Z.leb_spec 65 c), (Z.leb_spec c 70), (Z.leb_spec 97 c), (Z.leb_spec c 102); cbn in D; try discriminate; lia.
  - destruct (d <? base); [|discriminate]. eapply IH. exact H.
Qed.
Lemma nat_chars base l n : read_nat base l = Some n -> Forall (fun c => 48 <= c <= 57 \/ 65 <= c <= 70 \/ 97 <= c <= 102) l.
Proof. destruct l; [discriminate|]. apply digits_chars. Qed.
Lemma int_chars l n : read_int l = Some n -> Forall (fun c => c = 45 \/ 48 <= c <= 57 \/ 65 <= c <= 70 \/ 97 <= c <= 102) l.
Proof.
  unfold read_int. intros H.
  assert (K : forall m, read_nat 10 l = Some m -> Forall (fun c => c = 45 \/ 48 <= c <= 57 \/ 65 <= c <= 70 \/ 97 <= c <= 102) l).
  { intros m Hm. eapply Forall_impl; [|eapply nat_chars; exact Hm]. cbn. intros; lia. }
  destruct l as [|c l]; [discriminate|]. destruct (Z.eqb_spec c 45) as [->|N].
  - destruct (read_nat 10 l) as [m|] eqn:E; [|discriminate]. constructor; [auto|]. eapply Forall_impl; [|eapply nat_chars; exact E]. cbn. intros; lia.
  - assert (Hm : read_nat 10 (c :: l) = Some n). { destruct c as [|p|p]; try exact H. repeat (destruct p as [p|p|]; try exact H; try congruence). }
    eapply K. exact Hm.
Qed.
Lemma forall_notin {P : Z -> Prop} c l : Forall P l -> ~ P c -> ~ In c l.
Proof. rewrite Forall_forall. intros F N I. apply N. auto. Qed.
Lemma dec_notin n s c : shows (Dec n) s -> c = 10 \/ c = 44 \/ c = 32 -> ~ In c s.
Proof. intros [H _] C. apply int_chars in H. eapply forall_notin; [exact H|]. cbn. lia. Qed.
Lemma count_notin n s c : shows (Count n) s -> c = 10 \/ c = 41 -> ~ In c s.
Proof. intros [H _] C. apply nat_chars in H. eapply forall_notin; [exact H|]. cbn. lia. Qed.
Lemma dump_det s bs bs' : hex_dump s bs -> hex_dump s bs' -> bs = bs'.
Proof. intros H H'. apply (conv_text s bs []) in H. apply (conv_text s bs' []) in H'. rewrite H in H'. cbn [conv] in *. rewrite !app_nil_r in H'. exact H'. Qed.

Lemma wire_inj t t' : valid t -> valid t' -> wire t = wire t' -> t = t'.
Proof.
  intros V V' E. destruct t' as [|c a|c a ci|c a ci p].
  - destruct t; cbn in E; try discriminate. reflexivity.
  - destruct t; cbn in E; try discriminate. injection E as -> -> _. reflexivity.
  - destruct t as [|?|?|? ? ? q]; cbn in E; try discriminate; [injection E as -> -> ->; reflexivity|].
    exfalso. injection E as E. destruct V as (_ & _ & _ & _ & V). lia.
  - apply wire_long_inj; assumption.
Qed.
Lemma says_l s ps t : says (L s :: ps) t -> exists t', t = cstr s ++ t' /\ says ps t'.
Proof. inversion 1; subst; eauto. Qed.
Lemma says_v v ps t : says (V v :: ps) t -> exists s t', t = s ++ t' /\ shows v s /\ says ps t'.
Proof. inversion 1; subst; eauto. Qed.
Lemma says_n ps t : says (NL :: ps) t -> exists t', t = 10 :: t' /\ says ps t'.
Proof. inversion 1; subst; eauto. Qed.
Lemma says_nil t : says [] t -> t = [].
Proof. inversion 1; reflexivity. Qed.
Lemma telegram_line_inv t ps x : says (telegram_line t ++ ps) x -> exists s1 s2 s3 rest,
  x = (cstr "mbus_frame_print: Dumping M-Bus frame [type " ++ s1 ++ cstr ", " ++ s2 ++ cstr " bytes]: " ++ s3) ++ 10 :: rest /\
  shows (Dec (kind_no t)) s1 /\ shows (Dec (Z.of_nat (length (wire t)))) s2 /\ shows (Bytes (wire t)) s3 /\ says ps rest.
Proof.
  unfold telegram_line. cbn [app]. intros H.
  apply says_l in H. destruct H as (x1 & -> & H). apply says_v in H. destruct H as (s1 & x2 & -> & S1 & H).
  apply says_l in H. destruct H as (x3 & -> & H). apply says_v in H. destruct H as (s2 & x4 & -> & S2 & H).
  apply says_l in H. destruct H as (x5 & -> & H). apply says_v in H. destruct H as (s3 & x6 & -> & S3 & H).
  apply says_n in H. destruct H as (rest & -> & H).
  exists s1, s2, s3, rest. split; [rewrite <- !app_assoc; reflexivity|]. auto.
Qed.
Lemma notin_lit c (s : string) : existsb (Z.eqb c) (cstr s) = false -> ~ In c (cstr s).
Proof. intros E I. assert (T : existsb (Z.eqb c) (cstr s) = true) by (apply existsb_exists; exists c; split; [assumption|apply Z.eqb_refl]). congruence. Qed.
Ltac notin := repeat (let H := fresh in intros H; apply in_app_or in H; destruct H as [H|H]; revert H); 
  try (apply notin_lit; reflexivity).
Lemma lines_inj ts ts' x : Forall valid ts -> Forall valid ts' -> says (flat_map telegram_line ts) x -> says (flat_map telegram_line ts') x -> ts = ts'.
Proof.
  intros V. revert ts' x. induction V as [|t ts V _ IH]; intros ts' x V' H H'; cbn [flat_map] in H.
  - apply says_nil in H. subst x. destruct ts' as [|t' ts']; [reflexivity|]. cbn [flat_map] in H'. apply telegram_line_inv in H'. destruct H' as (s1 & s2 & s3 & rest & E & _). cbn in E. discriminate E.
  - destruct V' as [|t' ts' Vt V'].
    { cbn [flat_map] in H'. apply says_nil in H'. subst x. apply telegram_line_inv in H. destruct H as (s1 & s2 & s3 & rest & E & _). cbn in E. discriminate E. }
    cbn [flat_map] in H'. apply telegram_line_inv in H, H'. destruct H as (s1 & s2 & s3 & rest & E & S1 & S2 & S3 & H), H' as (s1' & s2' & s3' & rest' & E' & S1' & S2' & S3' & H').
    rewrite E in E'. clear E. apply cut_first in E'.
    2,3: notin; [eapply dec_notin; [eassumption|lia]|eapply dec_notin; [eassumption|lia]|first [exact (proj2 S3)|exact (proj2 S3')]].
    destruct E' as [E <-]. apply app_inv_head in E. change (cstr ", ") with [44; 32] in E. cbn [app] in E. apply cut_first in E; [|eapply dec_notin; [eassumption|lia]..].
    destruct E as [_ E]. injection E as E. change (cstr " bytes]: ") with (32 :: cstr "bytes]: ") in E. cbn [app] in E. apply cut_first in E; [|eapply dec_notin; [eassumption|lia]..].
    destruct E as [_ E]. injection E as E. subst s3'. 
    f_equal; [|eapply IH; eassumption]. apply wire_inj; [assumption..|]. eapply dump_det; [apply S3|apply S3'].
Qed.

(** ** Traffic logs *)
Lemma shows_count n : 0 <= n -> shows (Count n) (fmt_03u n).
Proof.
  intros H. unfold fmt_03u. split.
  - apply zpad_read; [lia|]. apply fmt_u_read. assumption.
  - unfold zpad. rewrite app_length, repeat_length. lia.
Qed.
Lemma hex_dump_line stamp label bs : bytes bs -> exists x,
  mbus_hex_dump stamp (Some label) (Some bs) (length bs) = Ok x /\ says (dump_line stamp label bs) x.
Proof.
  intros H. unfold mbus_hex_dump. destruct (Nat.ltb_spec (length bs) (length bs)); [lia|]. rewrite firstn_all. eexists. split; [reflexivity|].
  unfold dump_line. apply say_word. apply say_value; [reflexivity|]. apply say_word. apply say_value; [reflexivity|]. apply say_word.
  apply say_value; [apply shows_count; lia|]. apply say_word. apply say_value; [apply dump_before; assumption|]. apply say_nl_end.
Qed.
Lemma dump_log_says clock tr : forall i, Forall (fun e => bytes (snd e)) (traffic tr) -> exists x, dump_log clock i tr = Ok x /\ says (log_lines clock i (traffic tr)) x.
Proof.
  induction tr as [|a tr IH]; intros i H; [exists []; split; [reflexivity|constructor]|].
  destruct a as [l r|n r|s l|s l]; cbn [traffic flat_map app] in H |- *; try (apply IH; exact H).
  - inversion H as [|? ? Hl Ht]; subst. destruct (IH (S i) Ht) as (y & E & Sy). destruct (hex_dump_line (clock i) (cstr "SEND") l Hl) as (x & Ex & Sx).
    exists (x ++ y). cbn [dump_log]. unfold mbus_dump_send_event. rewrite Ex, E. split; [reflexivity|]. cbn [log_lines]. apply says_app; assumption.
  - inversion H as [|? ? Hl Ht]; subst. destruct (IH (S i) Ht) as (y & E & Sy). destruct (hex_dump_line (clock i) (cstr "RECV") l Hl) as (x & Ex & Sx).
    exists (x ++ y). cbn [dump_log]. unfold mbus_dump_recv_event. rewrite Ex, E. split; [reflexivity|]. cbn [log_lines]. apply says_app; assumption.
Qed.
Lemma dump_line_inv stamp label bs ps x : says (dump_line stamp label bs ++ ps) x -> exists s1 s2 rest,
  x = (cstr "[" ++ stamp ++ cstr "] " ++ label ++ cstr " (" ++ s1 ++ cstr "):" ++ s2) ++ 10 :: rest /\
  shows (Count (Z.of_nat (length bs))) s1 /\ shows (Bytes bs) s2 /\ says ps rest.
Proof.
  unfold dump_line. cbn [app]. intros H.
  apply says_l in H. destruct H as (x1 & -> & H). apply says_v in H. destruct H as (s1 & x2 & -> & S1 & H).
  apply says_l in H. destruct H as (x3 & -> & H). apply says_v in H. destruct H as (s2 & x4 & -> & S2 & H).
  apply says_l in H. destruct H as (x5 & -> & H). apply says_v in H. destruct H as (s3 & x6 & -> & S3 & H).
  apply says_l in H. destruct H as (x7 & -> & H). apply says_v in H. destruct H as (s4 & x8 & -> & S4 & H).
  apply says_n in H. destruct H as (rest & -> & H). cbn in S1, S2. subst s1 s2.
  exists s3, s4, rest. split; [rewrite <- !app_assoc; reflexivity|]. auto.
Qed.
Lemma log_inj clock clock' : (forall i, time_text (clock i)) -> (forall i, time_text (clock' i)) ->
  forall es es' i i' x, says (log_lines clock i es) x -> says (log_lines clock' i' es') x -> es = es'.
Proof.
  intros T T'. induction es as [|[d l] es IH]; intros [|[d' l'] es'] i i' x H H'; cbn [log_lines] in *.
  - reflexivity.
  - apply says_nil in H. subst x. apply dump_line_inv in H'. destruct H' as (s1 & s2 & rest & E & _). cbn in E. discriminate E.
  - apply says_nil in H'. subst x. apply dump_line_inv in H. destruct H as (s1 & s2 & rest & E & _). cbn in E. discriminate E.
  - apply dump_line_inv in H, H'. destruct H as (s1 & s2 & rest & E & S1 & S2 & H), H' as (s1' & s2' & rest' & E' & S1' & S2' & H').
    rewrite E in E'. clear E. assert (D : forall b : bool, ~ In 10 (cstr (if b then "SEND" else "RECV"))) by (intros []; apply notin_lit; reflexivity).
    apply cut_first in E'.
    2,3: notin; [first [apply T|apply T']|apply D|eapply count_notin; [eassumption|lia]|first [exact (proj2 S2)|exact (proj2 S2')]].
    destruct E' as [E <-]. apply app_inv_head in E. change (cstr "] ") with [93; 32] in E. cbn [app] in E. apply cut_first in E; [|first [apply T|apply T']..].
    destruct E as [_ E]. injection E as E.
    assert (Ed : d = d' /\ cstr " (" ++ s1 ++ cstr "):" ++ s2 = cstr " (" ++ s1' ++ cstr "):" ++ s2').
    { destruct d, d'; cbn in E; try discriminate E; (split; [reflexivity|]); injection E as E; cbn; rewrite E; reflexivity. }
    destruct Ed as [-> Ed]. apply app_inv_head in Ed. change (cstr "):") with [41; 58] in Ed. cbn [app] in Ed. apply cut_first in Ed; [|eapply count_notin; [eassumption|lia]..].
    destruct Ed as [_ Ed]. injection Ed as Ed. subst s2'. f_equal; [|eapply IH; eassumption]. f_equal. eapply dump_det; [apply S2|apply S2'].
Qed.

(** ** Data *)
Lemma shift_40 b : is_byte b -> Z.shiftr (Z.land b 0x40) 6 = b / 64 mod 2.
Proof. intros H. by_bytes b H. Qed.
Lemma shift_30 b : is_byte b -> Z.shiftr (Z.land b 0x30) 4 = b / 16 mod 4.
Proof. intros H. by_bytes b H. Qed.
Lemma zero_30 b : is_byte b -> (Z.land b 0x30 =? 0) = (b / 16 mod 4 =? 0).
Proof. intros H. apply eqb_prop. revert b H. apply byte_cases. vm_compute. reflexivity. Qed.
Lemma byte_mod b m : is_byte b -> 0 < m <= 256 -> is_byte (b mod m).
Proof. unfold is_byte. intros. pose proof (Z.mod_pos_bound b m). lia. Qed.
Lemma byte_nth l i : bytes l -> is_byte (nth i l 0).
Proof. intros H. destruct (Nat.ltb_spec i (length l)); [apply Forall_nth; assumption|rewrite nth_overflow by assumption; unfold is_byte; lia]. Qed.

Lemma maker_text b1 b2 : is_byte b1 -> is_byte b2 -> let u := b1 + 256 * b2 in
  shows (Maker u) (c_text [(u / 1024) mod 32 + 64; (u / 32) mod 32 + 64; u mod 32 + 64; 0]).
Proof.
  intros H1 H2 u. assert (0 <= u < 65536) by (unfold u, is_byte in *; lia). clearbody u. clear H1 H2.
  pose proof (Z.mod_pos_bound (u / 1024) 32 ltac:(lia)). pose proof (Z.mod_pos_bound (u / 32) 32 ltac:(lia)). pose proof (Z.mod_pos_bound u 32 ltac:(lia)).
  cbn [c_text]. repeat (match goal with |- context [if ?a =? 0 then _ else _] => destruct (Z.eqb_spec a 0); [lia|] end). cbn.
  exists ((u / 1024) mod 32 + 64), ((u / 32) mod 32 + 64), (u mod 32 + 64). split; [reflexivity|]. split; [lia|]. split; [lia|]. split; [lia|].
  unfold flag_id. change (2 ^ 15) with 32768. lia.
Qed.
Lemma header_printed h : length h = 12%nat -> bytes h -> exists x, mbus_data_variable_header_print h = Ok x /\ says (header_report h) x.
Proof.
  intros Hl Hb. unfold mbus_data_variable_header_print. rewrite bcd_hex_spec by (auto; lia). rewrite !rd_ok by lia. cbn [bind].
  rewrite decode_manufacturer_spec by (apply byte_nth; assumption). cbn [bind]. eexists. split; [reflexivity|].
  unfold header_report. cbv zeta.
  replace (le [nth 0 h 0; nth 1 h 0; nth 2 h 0; nth 3 h 0]) with (le (firstn 4 h)) by (destruct h as [|? [|? [|? [|? h]]]]; try discriminate; reflexivity).
  assert (0 <= le (firstn 4 h)). { apply (le_firstn_range h 4); [assumption|lia]. }
  unfold hp. report; try (apply shows_byte; apply byte_nth; assumption); try (apply shows_hex; assumption).
  apply maker_text; apply byte_nth; assumption.
Qed.

Lemma says_eq a b x y : says a x -> a = b -> x = y -> says b y.
Proof. intros H -> ->. exact H. Qed.
Lemma rd_pad ds j d n : nth_error ds j = Some d -> rd (pad n ds) j = Ok d.
Proof. intros H. unfold pad. assert (j < length ds)%nat by (apply nth_error_Some; congruence). rewrite rd_app1 by assumption. rewrite rd_ok by assumption. f_equal. apply nth_error_nth. exact H. Qed.
Lemma difes_printed r n done ds : r_dife r = pad n (done ++ ds) -> bytes ds -> exists x,
  print_difes r (length done) (length ds) = Ok x /\ says (dife_report (Z.of_nat (length done)) ds) x.
Proof.
  revert done. induction ds as [|d ds IH]; intros done E B; [exists []; split; [reflexivity|constructor]|].
  inversion B as [|? ? Hd Bs]; subst. destruct (IH (done ++ [d])) as (x & Ex & Sx); [rewrite <- app_assoc; exact E|assumption|].
  rewrite app_length in Ex, Sx. cbn [length] in Ex, Sx. rewrite Nat.add_1_r in Ex.
  cbn [length print_difes]. rewrite E, (rd_pad _ _ d) by (rewrite nth_error_app2, Nat.sub_diag by lia; reflexivity). cbn [bind]. rewrite Ex. cbn [bind].
  eexists. split; [reflexivity|]. rewrite shift_40, shift_30, land_0F by assumption.
  cbn [dife_report app]. replace (Z.of_nat (length done) + 1) with (Z.of_nat (length done + 1)) by lia.
  report; try (apply shows_decu; lia); try (apply shows_byte; apply byte_mod; [assumption|lia]). exact Sx.
Qed.
Lemma vifes_printed r n done vs : r_vife r = pad n (done ++ vs) -> bytes vs -> exists x,
  print_vifes r (length done) (length vs) = Ok x /\ says (vife_report (Z.of_nat (length done)) vs) x.
Proof.
  revert done. induction vs as [|d vs IH]; intros done E B; [exists []; split; [reflexivity|constructor]|].
  inversion B as [|? ? Hd Bs]; subst. destruct (IH (done ++ [d])) as (x & Ex & Sx); [rewrite <- app_assoc; exact E|assumption|].
  rewrite app_length in Ex, Sx. cbn [length] in Ex, Sx. rewrite Nat.add_1_r in Ex.
  cbn [length print_vifes]. rewrite E, (rd_pad _ _ d) by (rewrite nth_error_app2, Nat.sub_diag by lia; reflexivity). cbn [bind]. rewrite Ex. cbn [bind].
  eexists. split; [reflexivity|]. rewrite land_7F by assumption.
  cbn [vife_report app]. replace (Z.of_nat (length done) + 1) with (Z.of_nat (length done + 1)) by lia.
  report; try (apply shows_decu; lia); try (apply shows_byte; apply byte_mod; [assumption|lia]). exact Sx.
Qed.
Lemma block_printed r n done b : r_data r = pad n (done ++ b) -> print_block r (length done) (length b) = Ok (flat_map (fun b => fmt_X2 b ++ cstr " ") b).
Proof.
  revert done. induction b as [|c b IH]; intros done E; [reflexivity|].
  specialize (IH (done ++ [c])). rewrite <- app_assoc in IH. specialize (IH E). rewrite app_length in IH. cbn [length] in IH. rewrite Nat.add_1_r in IH.
  cbn [length print_block]. rewrite E, (rd_pad _ _ c) by (rewrite nth_error_app2, Nat.sub_diag by lia; reflexivity). cbn [bind]. rewrite IH. cbn [bind flat_map].
  rewrite <- app_assoc. reflexivity.
Qed.
(** The function word. *)
Definition printed_function (dif : Z) : list Z := cstr (if dif / 16 mod 4 =? 0 then "Instantaneous value" else "Value during error state").
Lemma function_known a : (a / 16) mod 4 = 0 \/ (a / 16) mod 4 = 3 -> printed_function a = function_name a.
Proof. unfold printed_function, function_name. intros [-> | ->]; reflexivity. Qed.
Lemma dif_printed i dif v ps y : is_byte dif -> shows v (printed_function dif) -> says ps y ->
  says (dif_report i dif v ++ ps)
    (cstr "Record ID         = " ++ fmt_d i ++ nl ++
    cstr "DIF               = " ++ fmt_X2 dif ++ nl ++
    cstr "DIF.Extension     = " ++ yes_no (negb (Z.land dif 0x80 =? 0)) ++ nl ++
    cstr "DIF.StorageNumber = " ++ fmt_d (Z.shiftr (Z.land dif 0x40) 6) ++ nl ++
    cstr "DIF.Function      = " ++ (if negb (Z.land dif 0x30 =? 0) then cstr "Value during error state" else cstr "Instantaneous value") ++ nl ++
    cstr "DIF.Data          = " ++ fmt_X2 (Z.land dif 0x0F) ++ nl ++ y).
Proof.
  intros H Hv Hy. rewrite shift_40, zero_30, land_0F by assumption. unfold dif_report. cbn [app].
  report; try (apply shows_byte; apply byte_mod; [assumption|lia]); [|exact Hy].
  unfold printed_function in Hv. destruct (dif / 16 mod 4 =? 0); exact Hv.
Qed.
Lemma wf_bytes a : wf_rec a -> is_byte (a_dif a) /\ bytes (a_difes a) /\ is_byte (a_vif a) /\ bytes (a_vifes a).
Proof.
  intros (_ & _ & _ & _ & _ & _ & _ & _ & _ & _ & B). unfold enc_rec in B. unfold bytes in *.
  repeat (rewrite ?Forall_app, ?Forall_cons_iff in B). tauto.
Qed.
Lemma data_printed i a v : wf_rec a -> shows v (printed_function (a_dif a)) -> exists x, print_record (obj a) i = Ok x /\
  says (dif_report i (a_dif a) v ++ [L "DATA LENGTH = "; V (Dec (Z.of_nat (length (a_value a)))); NL] ++ dife_report 0 (a_difes a) ++
      [L "VIF           = "; V (Byte (a_vif a)); NL;
       L "VIF.Extension = "; V (yes (128 <=? a_vif a)); NL;
       L "VIF.Value     = "; V (Byte (a_vif a mod 128)); NL] ++ vife_report 0 (a_vifes a) ++ [NL]) x.
Proof.
  intros W Hv. destruct (wf_bytes a W) as (B1 & B2 & B3 & B4). destruct W as (N1 & N2 & _).
  destruct (difes_printed (obj a) 10 [] (a_difes a) eq_refl B2) as (ds & Ed & Sd). destruct (vifes_printed (obj a) 10 [] (a_vifes a) eq_refl B4) as (vs & Ev & Sv).
  unfold print_record. cbv zeta. change (r_dif (obj a)) with (a_dif a).
  destruct (Z.eqb_spec (a_dif a) 0x0F); [congruence|]. destruct (Z.eqb_spec (a_dif a) 0x1F); [congruence|]. cbn [orb].
  change (r_ndife (obj a)) with (length (a_difes a)). change (r_nvife (obj a)) with (length (a_vifes a)). cbn [length] in Ed, Ev. rewrite Ed, Ev. cbn [bind].
  eexists. split; [reflexivity|]. rewrite <- !app_assoc. apply dif_printed; [assumption..|].
  change (r_len (obj a)) with (length (a_value a)). change (r_vif (obj a)) with (a_vif a). rewrite land_7F by assumption.
  cbn [app]. apply say_word. apply say_value; [apply shows_decu; lia|]. apply say_nl. apply says_app; [exact Sd|].
  report. { apply shows_byte; apply byte_mod; [assumption|lia]. } apply says_app; [exact Sv|]. apply say_nl_end.
Qed.
Lemma block_record_printed i more b : bytes b -> exists x, print_record (obj_block (tail_dif more) b) i = Ok x /\ says (entry_report i (EBlock more b)) x.
Proof.
  intros B. unfold print_record. cbv zeta. change (r_dif (obj_block (tail_dif more) b)) with (tail_dif more). 
  replace ((tail_dif more =? 0x0F) || (tail_dif more =? 0x1F)) with true by (destruct more; reflexivity).
  change (r_len (obj_block (tail_dif more) b)) with (length b). pose proof (block_printed (obj_block (tail_dif more) b) 234 [] b eq_refl) as E. cbn [length] in E. rewrite E. cbn [bind].
  eexists. split; [reflexivity|]. rewrite <- !app_assoc. unfold entry_report. apply dif_printed; [destruct more; unfold tail_dif, is_byte; lia|destruct more; apply notin_lit; reflexivity|].
  cbn [app]. apply say_word. apply say_value; [apply shows_decu; lia|]. apply say_word. apply say_value; [apply dump_after; assumption|]. apply say_nl.
  destruct more; cbn [tail_dif Z.eqb Pos.eqb]; [|constructor]. apply say_word. apply say_nl_end.
Qed.
Lemma records_printed (P : entry -> Prop) (R : forall i e, P e -> match e with EData a => wf_rec a | EBlock _ b => bytes b end -> exists x, print_record (match e with EData a => obj a | EBlock more b => obj_block (tail_dif more) b end) i = Ok x /\ says (entry_report i e) x) :
  forall es i, Forall P es -> Forall (fun e => match e with EData a => wf_rec a | EBlock _ b => bytes b end) es ->
  exists x, print_records (map (fun e => match e with EData a => obj a | EBlock more b => obj_block (tail_dif more) b end) es) i = Ok x /\ says (entries_report i es) x.
Proof.
  induction es as [|e es IH]; intros i HP W; [exists []; split; [reflexivity|constructor]|].
  inversion HP as [|? ? P1 P2]; inversion W as [|? ? W1 W2]; subst. destruct (R i e P1 W1) as (x & Ex & Sx). destruct (IH (i + 1) P2 W2) as (y & Ey & Sy).
  exists (x ++ y). cbn [map print_records]. rewrite Ex. cbn [bind]. rewrite Ey. split; [reflexivity|]. cbn [entries_report]. apply says_app; assumption.
Qed.
Lemma entry_printed i e : known_function e -> match e with EData a => wf_rec a | EBlock _ b => bytes b end ->
  exists x, print_record (match e with EData a => obj a | EBlock more b => obj_block (tail_dif more) b end) i = Ok x /\ says (entry_report i e) x.
Proof.
  destruct e as [a|more b]; intros K W; [|apply block_record_printed; assumption]. apply data_printed; [assumption|]. cbn. apply function_known. exact K.
Qed.
Lemma objs_entries its t : objs its ++ objs_tail t = map (fun e => match e with EData a => obj a | EBlock more b => obj_block (tail_dif more) b end) (entries its t).
Proof.
  unfold entries. rewrite map_app. f_equal.
  - induction its as [|[|a] its IH]; [reflexivity|exact IH|]. unfold objs. cbn. f_equal. exact IH.
  - destruct t as [[more b]|]; reflexivity.
Qed.
Lemma entries_wf its t : Forall wf_item its -> wf_tail t -> Forall (fun e => match e with EData a => wf_rec a | EBlock _ b => bytes b end) (entries its t).
Proof.
  intros H Ht. unfold entries. apply Forall_app. split.
  - induction H as [|[|a] its Hi _ IH]; cbn; [constructor|exact IH|]. constructor; [exact Hi|exact IH].
  - destruct t as [[more b]|]; cbn; [|constructor]. constructor; [apply Ht|constructor].
Qed.
Lemma variable_printed h its t : length h = 12%nat -> bytes h -> Forall wf_item its -> wf_tail t -> Forall known_function (entries its t) ->
  exists x, mbus_data_variable_print (dvar_of h its t) = Ok (-1, x) /\ says (header_report h ++ entries_report 0 (entries its t)) x.
Proof.
  intros Hl Hb Hi Ht K. destruct (header_printed h Hl Hb) as (x & Ex & Sx).
  destruct (records_printed known_function entry_printed (entries its t) 0 K (entries_wf its t Hi Ht)) as (y & Ey & Sy).
  exists (x ++ y). unfold mbus_data_variable_print. cbn [dvar_of v_header v_records]. rewrite Ex. cbn [bind]. rewrite objs_entries, Ey. split; [reflexivity|]. apply says_app; assumption.
Qed.

(** Fixed data. *)
Lemma counter_printed (n : string) x type val : is_byte (x_type1 x) -> is_byte (x_type2 x) -> is_byte (x_status x) -> bytes val -> length val = 4%nat ->
  exists y, print_counter (cstr fp) (cstr n) x type val = Ok y /\ says (counter_report n x type val) y.
Proof.
  intros H1 H2 Hs B Hl. pose proof (bcd_hex_spec val 4 B ltac:(lia) ltac:(lia)) as E1. pose proof (int_decode_spec val 4 B ltac:(lia) ltac:(lia)) as E2.
  rewrite firstn_all2 in E1, E2 by lia. destruct (C63_fixed x H1 H2 Hs) as [M _].
  unfold print_counter. rewrite land_80 by assumption.
  assert (P : 0 <= le val) by (apply le_bounds; assumption).
  unfold counter_report. destruct (x_status x <? 128).
  - rewrite E1. cbn [bind Z.eqb]. eexists. split; [reflexivity|]. rewrite M. report. apply shows_hex. exact P.
  - rewrite E2. cbn [bind Z.eqb]. eexists. split; [reflexivity|]. rewrite M. report.
Qed.
Lemma fixed_printed x : is_byte (x_type1 x) -> is_byte (x_type2 x) -> is_byte (x_status x) -> is_byte (x_tx_cnt x) ->
  bytes (x_id x) -> length (x_id x) = 4%nat -> bytes (x_val1 x) -> length (x_val1 x) = 4%nat -> bytes (x_val2 x) -> length (x_val2 x) = 4%nat ->
  exists y, mbus_data_fixed_print x = Ok (-1, y) /\ says (fixed_report x) y.
Proof.
  intros H1 H2 Hs Ht Bi Li B1 L1 B2 L2. unfold mbus_data_fixed_print. change (cstr "mbus_data_fixed_print: ") with (cstr fp).
  rewrite bcd_hex_spec by (auto; lia). cbn [bind]. cbv zeta. rewrite firstn_all2 by lia.
  destruct (counter_printed "1" x (x_type1 x) (x_val1 x)) as (y1 & E1 & S1); try assumption. destruct (counter_printed "2" x (x_type2 x) (x_val2 x)) as (y2 & E2 & S2); try assumption.
  rewrite E1. cbn [bind]. rewrite E2. cbn [bind]. eexists. split; [reflexivity|]. destruct (C63_fixed x H1 H2 Hs) as [_ F]. rewrite F.
  unfold fixed_report. cbn [app]. report. { apply shows_hex. apply le_bounds. assumption. } apply says_app; assumption.
Qed.
