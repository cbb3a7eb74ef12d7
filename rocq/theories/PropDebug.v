(** Theorems: parse debugging (C89). *)
From Coq Require Import String.
From Coq Require Import List.
From Verif Require Import CBase PBase CStr MFrame MRecv MCodec MVar MText MDebug SText SHex SCodec SVar SXml SPrint SDebug SRecv.
From Verif Require Import PFrame PCodec PText PXml3 PReq2 PPrint PVar3 PropVar.
Local Open Scope Z_scope.

Lemma parse_text_says bs : bytes bs -> says (parse_report bs) (parse_text bs).
Proof.
  intros B. unfold parse_report, parse_text. cbn [app].
  apply say_word. apply say_value; [apply shows_decu; lia|]. apply say_word. apply say_line.
  apply say_word. apply say_value; [apply dump_after; exact B|]. apply say_line. apply say_word. apply say_line. apply say_end.
Qed.
Lemma parse_d on f bs : mbus_parse_d on f bs = let* (r, f') := mbus_parse f bs in Ok (r, f', match bs with [] => [] | _ => if on then parse_text bs else [] end).
Proof. unfold mbus_parse_d. destruct (mbus_parse f bs) as [[r f']|]; cbn [bind]; [|reflexivity]. destruct bs; [reflexivity|]. destruct on; reflexivity. Qed.

(** ** Receiving *)
Definition with_text (r : recv_res) (d : recv_res_d) (on : bool) (out : list Z) (start : list Z) : Prop :=
  match r with
  | UB => d = UB
  | Ok None => d = Ok None
  | Ok (Some (c, f, es, got)) => exists o, d = Ok (Some (c, f, es, got, out ++ o)) /\ (on = false -> o = []) /\
      (on = true -> exists bss, says (flat_map parse_report bss) o /\ forall before, attempts before start -> attempts (before ++ bss) got)
  end.
Lemma text_now (r : Z) f es got on out : with_text (Ok (Some (r, f, es, got))) (Ok (Some (r, f, es, got, out))) on out got.
Proof.
  exists []. rewrite app_nil_r. split; [reflexivity|]. split; [reflexivity|]. intros _. exists []. split; [constructor|]. intros b A. rewrite app_nil_r. exact A.
Qed.
Lemma text_first (r : recv_res) d on out got bs : bytes (got ++ bs) -> got ++ bs <> [] ->
  with_text r d on (out ++ (if on then parse_text (got ++ bs) else [])) (got ++ bs) -> with_text r d on out got.
Proof.
  intros B N H. destruct r as [[[[[c f] es] g]|]|]; try exact H. destruct H as (o & E & H1 & H2). cbn [with_text]. destruct on.
  - exists (parse_text (got ++ bs) ++ o). rewrite app_assoc. split; [exact E|]. split; [discriminate|]. intros _. destruct (H2 eq_refl) as (bss & S & A).
    exists ((got ++ bs) :: bss). split; [cbn [flat_map]; apply says_app; [apply parse_text_says; exact B|exact S]|].
    intros before Ab. replace (before ++ (got ++ bs) :: bss) with ((before ++ [got ++ bs]) ++ bss) by (rewrite <- app_assoc; reflexivity).
    apply A. apply at_more; assumption.
  - rewrite app_nil_r in E. exists o. split; [exact E|]. split; [exact H1|discriminate].
Qed.
Lemma finish_d f es got r on out : with_text (serial_finish f es got r) (serial_finish_d out f es got r) on out got.
Proof. unfold serial_finish, serial_finish_d. destruct (List.length got =? 0)%nat; [apply text_now|]. destruct (negb (r =? 0)); apply text_now. Qed.
Lemma serial_text on : forall fuel out f evs got rem to, bytes got -> ev_bytes evs ->
  with_text (serial_loop fuel f evs got rem to) (serial_loop_d fuel on out f evs got rem to) on out got.
Proof.
  induction fuel as [|fuel IH]; intros out f evs got rem to B E; [reflexivity|]. cbn [serial_loop serial_loop_d]. cbv zeta.
  destruct (_ + rem >? _); [apply text_now|]. destruct (read_ev (RBytes []) evs (Z.to_nat rem)) as [[bs|e] es] eqn:R; [|apply text_now].
  destruct (read_ev_bytes _ _ _ _ _ (or_introl eq_refl) E R) as [Bb Ee].
  destruct ((Z.of_nat (List.length bs) =? 0) && _); [apply finish_d|]. destruct (_ + _ >? _); [reflexivity|].
  rewrite parse_d. assert (Bg : bytes (got ++ bs)) by (apply Forall_app; auto).
  destruct (mbus_parse f (got ++ bs)) as [[r f']|] eqn:P; cbn [bind]; [|reflexivity].
  destruct (got ++ bs) as [|x g'] eqn:G.
  - rewrite app_nil_r. assert (got = []) as -> by (destruct got; [reflexivity|discriminate]).
    destruct (r >? 0); [apply IH; [constructor|exact Ee]|apply finish_d].
  - rewrite <- G in *. assert (N : got ++ bs <> []) by (rewrite G; discriminate).
    apply (text_first _ _ on out got bs Bg N). destruct (r >? 0); [apply IH; assumption|apply finish_d].
Qed.
Lemma tcp_text on : forall fuel out f evs got rem, bytes got -> ev_bytes evs ->
  with_text (tcp_loop fuel f evs got rem) (tcp_loop_d fuel on out f evs got rem) on out got.
Proof.
  induction fuel as [|fuel IH]; intros out f evs got rem B E; [reflexivity|]. cbn [tcp_loop tcp_loop_d]. cbv zeta.
  destruct (_ + rem >? _); [apply text_now|]. destruct (read_ev (RErr EAgain) evs (Z.to_nat rem)) as [[bs|e] es] eqn:R.
  - destruct (read_ev_bytes _ _ _ _ _ (or_intror eq_refl) E R) as [Bb Ee].
    destruct (Nat.eqb_spec (List.length bs) 0) as [Z0|N0]; [apply text_now|]. destruct (_ + _ >? _); [reflexivity|].
    rewrite parse_d. assert (Bg : bytes (got ++ bs)) by (apply Forall_app; auto).
    destruct (mbus_parse f (got ++ bs)) as [[r f']|] eqn:P; cbn [bind]; [|reflexivity].
    assert (N : got ++ bs <> []) by (destruct got, bs; cbn in *; try discriminate; lia).
    replace (match got ++ bs with [] => [] | _ => if on then parse_text (got ++ bs) else [] end) with (if on then parse_text (got ++ bs) else []) by (destruct (got ++ bs); [contradiction|reflexivity]).
    apply (text_first _ _ on out got bs Bg N). destruct (r >? 0); [apply IH; assumption|]. destruct (r <? 0); apply text_now.
  - assert (Ee : ev_bytes es).
    { destruct evs as [|[l| | | |] evs']; cbn in R; try (destruct (_ <=? _)%nat in R); inversion R; subst; try exact I; try (apply E). }
    destruct e; try apply text_now. apply IH; assumption.
Qed.

(** C89: with parse debugging switched off or on, parsing gives the same result; off, nothing is written; on, one report
    with exactly the bytes to be parsed, none if there are none. *)
Theorem C89_parse :
  forall on f bs r f', bytes bs -> mbus_parse f bs = Ok (r, f') ->
  exists out, mbus_parse_d on f bs = Ok (r, f', out) /\ (on = false -> out = []) /\
    (on = true -> match bs with [] => out = [] | _ => says (parse_report bs) out end).
Proof.
  intros on f bs r f' B E. rewrite parse_d, E. cbn [bind]. eexists. split; [reflexivity|]. destruct bs as [|b bs]; [auto|]. split; intros ->; [reflexivity|].
  apply parse_text_says. exact B.
Qed.
(** C89: so does receiving, over a serial line or TCP, whatever arrives; on, the reports are those of successive attempts
    with more and more of the telegram, the last with all that was received. *)
Theorem C89_receive :
  forall (serial on : bool) f evs, ev_bytes evs ->
  let r := if serial then mbus_serial_recv_frame f evs else mbus_tcp_recv_frame f evs in
  let d := if serial then mbus_serial_recv_frame_d on f evs else mbus_tcp_recv_frame_d on f evs in
  match r with
  | UB => d = UB
  | Ok None => d = Ok None
  | Ok (Some (c, f', es, got)) => exists out, d = Ok (Some (c, f', es, got, out)) /\ (on = false -> out = []) /\
      (on = true -> exists bss, says (flat_map parse_report bss) out /\ attempts bss got)
  end.
Proof.
  intros serial on f evs E r d.
  assert (W : with_text r d on [] []).
  { unfold r, d. destruct serial; [apply serial_text|apply tcp_text]; auto; constructor. }
  destruct r as [[[[[c f'] es] got]|]|]; try exact W. destruct W as (o & W1 & W2 & W3). exists o. split; [exact W1|]. split; [exact W2|].
  intros H. destruct (W3 H) as (bss & S & A). exists bss. split; [exact S|]. exact (A [] at_none).
Qed.
(** C89: the reports can be read back: the text determines the sequence of attempts. *)
Lemma report_inv bs ps x : says (parse_report bs ++ ps) x -> exists s1 s2 rest,
  x = (cstr "mbus_parse: Attempting to parse binary data [size = " ++ s1 ++ cstr "]") ++ 10 :: (cstr "mbus_parse: " ++ s2) ++ 10 :: cstr "mbus_parse: done." ++ 10 :: rest /\
  shows (Dec (Z.of_nat (List.length bs))) s1 /\ shows (Bytes bs) s2 /\ says ps rest.
Proof.
  unfold parse_report. cbn [app]. intros H.
  apply says_l in H. destruct H as (x1 & -> & H). apply says_v in H. destruct H as (s1 & x2 & -> & S1 & H).
  apply says_l in H. destruct H as (x3 & -> & H). apply says_n in H. destruct H as (x4 & -> & H).
  apply says_l in H. destruct H as (x5 & -> & H). apply says_v in H. destruct H as (s2 & x6 & -> & S2 & H).
  apply says_n in H. destruct H as (x7 & -> & H). apply says_l in H. destruct H as (x8 & -> & H). apply says_n in H. destruct H as (rest & -> & H).
  exists s1, s2, rest. split; [rewrite <- !app_assoc; reflexivity|]. auto.
Qed.
Theorem C89_unambiguous :
  forall bss bss' x, says (flat_map parse_report bss) x -> says (flat_map parse_report bss') x -> bss = bss'.
Proof.
  induction bss as [|bs bss IH]; intros [|bs' bss'] x H H'; cbn [flat_map] in H, H'.
  - reflexivity.
  - apply says_nil in H. subst x. apply report_inv in H'. destruct H' as (s1 & s2 & rest & E & _). cbn in E. discriminate E.
  - apply says_nil in H'. subst x. apply report_inv in H. destruct H as (s1 & s2 & rest & E & _). cbn in E. discriminate E.
  - apply report_inv in H. apply report_inv in H'. destruct H as (s1 & s2 & rest & E & S1 & S2 & H), H' as (s1' & s2' & rest' & E' & S1' & S2' & H').
    rewrite E in E'. clear E. apply cut_first in E'.
    2,3: notin; eapply dec_notin; [eassumption|lia].
    destruct E' as [_ E']. apply cut_first in E'.
    2,3: notin; first [exact (proj2 S2)|exact (proj2 S2')].
    destruct E' as [E1 E2]. apply app_inv_head in E1. subst s2'. apply app_inv_head in E2. injection E2 as <-.
    f_equal; [|eapply IH; eassumption]. eapply dump_det; [apply S2|apply S2'].
Qed.

(** ** Packing *)
Lemma pack_record_text on d n r : pack_record_d on d n r = let* (d', n') := pack_record d n r in
  Ok (d', n', if on then cstr "mbus_frame_internal_pack: packing DIF [" ++ fmt_u (Z.of_nat n) ++ cstr "]" ++
    cstr "mbus_frame_internal_pack: packing VIF [" ++ fmt_u (Z.of_nat (n + 1 + r_ndife r)) ++ cstr "]" ++
    cstr "mbus_frame_internal_pack: packing data [" ++ fmt_u (Z.of_nat (n + 1 + r_ndife r + 1 + r_nvife r)) ++ cstr " : " ++ fmt_u (Z.of_nat (r_len r)) ++ cstr "]" else []).
Proof.
  unfold pack_record_d, pack_record. destruct (wr d n (r_dif r)) as [d1|]; [|reflexivity]. cbn [bind].
  destruct (copy_loop (r_ndife r) d1 (n + 1) (r_dife r) 0) as [d2|]; [|reflexivity]. cbn [bind].
  destruct (wr d2 (n + 1 + r_ndife r) (r_vif r)) as [d3|]; [|reflexivity]. cbn [bind].
  destruct (copy_loop (r_nvife r) d3 (n + 1 + r_ndife r + 1) (r_vife r) 0) as [d4|]; [|reflexivity]. cbn [bind].
  destruct (copy_loop (r_len r) d4 (n + 1 + r_ndife r + 1 + r_nvife r) (r_data r) 0) as [d5|]; [|reflexivity]. cbn [bind].
  destruct on; [|reflexivity]. cbn [app]. rewrite <- !app_assoc. reflexivity.
Qed.
Lemma pack_records_text on : forall rs d n, match pack_records d n rs with
  | UB => pack_records_d on d n rs = UB
  | Ok (d', n') => exists o, pack_records_d on d n rs = Ok (d', n', o) /\ (on = false -> o = []) /\ (on = true -> says (place_reports n rs) o)
  end.
Proof.
  induction rs as [|r rs IH]; intros d n; cbn [pack_records pack_records_d].
  - exists []. split; [reflexivity|]. split; [reflexivity|]. intros _. constructor.
  - rewrite pack_record_text. destruct (pack_record d n r) as [[d1 n1]|] eqn:P; cbn [bind]; [|reflexivity].
    assert (n1 = n + 2 + r_ndife r + r_nvife r + r_len r)%nat as ->.
    { unfold pack_record in P. destruct (wr d n (r_dif r)) as [e1|]; [|discriminate]. cbn [bind] in P.
      destruct (copy_loop (r_ndife r) e1 (n + 1) (r_dife r) 0) as [e2|]; [|discriminate]. cbn [bind] in P.
      destruct (wr e2 (n + 1 + r_ndife r) (r_vif r)) as [e3|]; [|discriminate]. cbn [bind] in P.
      destruct (copy_loop (r_nvife r) e3 (n + 1 + r_ndife r + 1) (r_vife r) 0) as [e4|]; [|discriminate]. cbn [bind] in P.
      destruct (copy_loop (r_len r) e4 (n + 1 + r_ndife r + 1 + r_nvife r) (r_data r) 0) as [e5|]; [|discriminate]. cbn [bind] in P.
      apply ok_inj in P. injection P as _ <-. lia. }
    specialize (IH d1 (n + 2 + r_ndife r + r_nvife r + r_len r)%nat). destruct (pack_records d1 _ rs) as [[d2 n2]|]; [|rewrite IH; reflexivity].
    destruct IH as (o & -> & H1 & H2). cbn [bind]. eexists. split; [reflexivity|]. split.
    + intros ->. rewrite H1 by reflexivity. reflexivity.
    + intros ->. cbn [place_reports]. apply says_app; [|exact (H2 eq_refl)]. unfold place_report.
      replace (n + 1 + r_ndife r + 1 + r_nvife r)%nat with (n + 2 + r_ndife r + r_nvife r)%nat by lia.
      apply say_word. apply say_value; [apply shows_decu; lia|]. apply say_word. apply say_word. apply say_value; [apply shows_decu; lia|]. apply say_word.
      apply say_word. apply say_value; [apply shows_decu; lia|]. apply say_word. apply say_value; [apply shows_decu; lia|]. rewrite <- (app_nil_r (cstr "]")). apply say_word. apply say_end.
Qed.
(** C89: packing gives the same result; on, for each record the offsets of its DIF, VIF and data in the payload. *)
Theorem C89_pack :
  forall on g fd, match mbus_frame_internal_pack g fd with
  | UB => mbus_frame_internal_pack_d on g fd = UB
  | Ok (r, g') => exists out, mbus_frame_internal_pack_d on g fd = Ok (r, g', out) /\ (on = false -> out = []) /\
      (on = true -> says (if d_type fd =? DT_VARIABLE then place_reports 12 (v_records (d_var fd)) else []) out)
  end.
Proof.
  intros on g fd. unfold mbus_frame_internal_pack, mbus_frame_internal_pack_d. cbv zeta.
  destruct (Z.eqb_spec (d_type fd) DT_ERROR) as [E|_].
  { rewrite E. destruct (wr (fdata g) 0 (u8 (d_error fd))); cbn [bind]; [|reflexivity]. exists []. split; [reflexivity|]. split; [reflexivity|]. intros _. constructor. }
  destruct (Z.eqb_spec (d_type fd) DT_FIXED) as [E|_].
  { rewrite E. destruct (put_list (fdata g) 0 _); cbn [bind]; [|reflexivity]. exists []. split; [reflexivity|]. split; [reflexivity|]. intros _. constructor. }
  destruct (d_type fd =? DT_VARIABLE).
  2:{ exists []. split; [reflexivity|]. split; [reflexivity|]. intros _. constructor. }
  destruct (put_list (fdata g) 0 (v_header (d_var fd))) as [d|]; cbn [bind]; [|reflexivity].
  pose proof (pack_records_text on (v_records (d_var fd)) d 12) as H. destruct (pack_records d 12 (v_records (d_var fd))) as [[d' n']|]; cbn [bind]; [|rewrite H; reflexivity].
  destruct H as (o & -> & H1 & H2). cbn [bind]. exists o. auto.
Qed.
(** C89: over any sequence of calls, the results do not depend on when debugging is switched on and off, and the text is
    the reports of the calls made while it is on. *)
Theorem C89_history :
  forall cs on, Forall (fun c => match c with DParse _ data => bytes data | _ => True end) cs ->
  match dcalls_run false (filter (fun c => match c with DSet _ => false | _ => true end) cs) with
  | UB => dcalls_run on cs = UB
  | Ok (rs, o) => o = [] /\ exists rs' out, dcalls_run on cs = Ok (rs', out) /\
      filter (fun r => match r with None => false | _ => true end) rs' = rs /\ says (call_reports on cs) out
  end.
Proof.
  induction cs as [|c cs IH]; intros on B.
  - cbn. split; [reflexivity|]. exists [], []. split; [reflexivity|]. split; [reflexivity|constructor].
  - inversion B as [|? ? B1 B2]; subst. destruct c as [d|f data|f fd]; cbn [filter].
    + specialize (IH (mbus_parse_set_debug d) B2). cbn [dcalls_run dcall_run bind].
      destruct (dcalls_run false (filter _ cs)) as [[rs o]|]; [|rewrite IH; reflexivity].
      destruct IH as (E & rs' & out & -> & F & S). split; [exact E|]. cbn [bind]. exists (None :: rs'), out. split; [reflexivity|]. split; [exact F|]. exact S.
    + specialize (IH on B2). cbn [dcalls_run dcall_run]. rewrite !parse_d. destruct (mbus_parse f data) as [[r f']|] eqn:P; cbn [bind]; [|reflexivity].
      destruct (dcalls_run false (filter _ cs)) as [[rs o]|]; [|rewrite IH; reflexivity].
      destruct IH as (-> & rs' & out & -> & F & S). cbn [bind]. split; [destruct data; reflexivity|]. eexists (_ :: rs'), _. split; [reflexivity|]. split; [cbn [filter]; rewrite F; reflexivity|].
      cbn [call_reports call_report]. apply says_app; [|exact S]. destruct data as [|b data]; [destruct on; constructor|]. destruct on; [apply parse_text_says; exact B1|constructor].
    + specialize (IH on B2). cbn [dcalls_run dcall_run]. pose proof (C89_pack false f fd) as P0. pose proof (C89_pack on f fd) as P1.
      destruct (mbus_frame_internal_pack f fd) as [[r f']|]; [|rewrite P0, P1; reflexivity].
      destruct P0 as (o0 & -> & O0 & _), P1 as (o1 & -> & O1 & O1'). cbn [bind].
      destruct (dcalls_run false (filter _ cs)) as [[rs o]|]; [|rewrite IH; reflexivity].
      destruct IH as (-> & rs' & out & -> & F & S). cbn [bind]. split; [rewrite O0 by reflexivity; reflexivity|]. eexists (_ :: rs'), _. split; [reflexivity|]. split; [cbn [filter]; rewrite F; reflexivity|].
      cbn [call_reports call_report]. apply says_app; [|exact S]. destruct on; [exact (O1' eq_refl)|]. rewrite O1 by reflexivity. constructor.
Qed.
Print Assumptions C89_parse.
Print Assumptions C89_receive.
Print Assumptions C89_unambiguous.
Print Assumptions C89_pack.
Print Assumptions C89_history.

(** Cases: a short telegram in two pieces is received with three attempts to parse it; debugging is switched on between
    two parses; a record at offset 12. *)
Example C89_nonvacuous :
  (exists f' out, mbus_serial_recv_frame_d true frame_zero [MRecv.Data [0x10; 0x5B]; MRecv.Data [7; 0x62; 0x16]] = Ok (Some (RECV_OK, f', [], [0x10; 0x5B; 7; 0x62; 0x16], out)) /\
     out = flat_map parse_text [[0x10]; [0x10; 0x5B]; [0x10; 0x5B; 7; 0x62; 0x16]]) /\
  (exists rs, dcalls_run false [DParse frame_zero [0xE5]; DSet 1; DParse frame_zero [0x10]; DSet 0; DParse frame_zero [0x68]] = Ok (rs, parse_text [0x10])) /\
  (exists g', mbus_frame_internal_pack_d true (reply [] 0) (mkFD (mkVar ex_header [obj ex_rec1] 1 0) (mkFix [] 0 0 0 0 [] []) DT_VARIABLE 0) =
     Ok (0, g', cstr "mbus_frame_internal_pack: packing DIF [12]mbus_frame_internal_pack: packing VIF [15]mbus_frame_internal_pack: packing data [17 : 4]")).
Proof.
  split; [|split].
  - eexists. eexists. split; vm_compute; reflexivity.
  - eexists. vm_compute. reflexivity.
  - eexists. vm_compute. reflexivity.
Qed.
