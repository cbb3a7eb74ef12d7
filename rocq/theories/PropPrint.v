(** C77, C78: the printing functions. *)
From Coq Require Import String.
From Coq Require Import List.
From Verif Require Import CBase PBase CStr MFrame SWire SFrame PFrame PFrame2 MRecv MCodec SCodec MVar SVar PVar3 PropVar MText SText MXml SXml SName MHex SHex PropHex MMon SMon PropMon MPrint SPrint PPrint.
Local Open Scope Z_scope.

(** C77, telegrams: mbus_frame_print of a chain of valid telegrams of at most 256 bytes returns 0 and prints one line
    for each of them: its kind, its length and its bytes. Partial: longer telegrams (refutation). *)
Theorem C77_telegrams_partial :
  forall fs ts, fs <> [] ->
  Forall2 (fun f t => frame_obj f /\ delimiters f /\ denotes f t /\ valid t /\ (length (wire t) <= 256)%nat) fs ts ->
  exists x fs', mbus_frame_print fs = Ok (0, x, fs') /\ says (flat_map telegram_line ts) x.
Proof. intros [|f fs] ts N H; [congruence|]. exact (print_chain _ _ H). Qed.
Print Assumptions C77_telegrams_partial.

(** C77, nothing to print. *)
Theorem C77_none : mbus_frame_print [] = Ok (-1, [], []).
Proof. reflexivity. Qed.

(** C77: the printed text determines the telegrams: two chains with the same text are the same. *)
Theorem C77_unambiguous :
  forall ts ts' x, Forall valid ts -> Forall valid ts' ->
  says (flat_map telegram_line ts) x -> says (flat_map telegram_line ts') x -> ts = ts'.
Proof. intros ts ts' x V V' H H'. eapply lines_inj; eassumption. Qed.
Print Assumptions C77_unambiguous.

(** C77, finding: the buffer holds 256 bytes and a valid telegram can be longer. Then packing fails with -4, which the
    function does not notice: it prints -4 as the number of bytes and no bytes, and returns 0. *)
Theorem C77_long_refuted :
  forall f c a ci p, frame_obj f -> delimiters f -> denotes f (Long c a ci p) -> valid (Long c a ci p) -> (248 <= length p)%nat ->
  exists f', mbus_frame_print [f] = Ok (0, cstr "mbus_frame_print: Dumping M-Bus frame [type 4, -4 bytes]: " ++ nl, [f']).
Proof.
  intros f c a ci p Ho Hd (T & _ & _ & _ & S & _) Hv Hp. pose proof Hv as (_ & _ & _ & _ & V).
  pose proof (pack_spec f (repeat 0 256) 256 Ho) as P. rewrite repeat_length in P. specialize (P ltac:(intros _; rewrite S; lia) ltac:(lia)).
  unfold pack_bytes in P. rewrite T in P. cbn [Z.eqb T_ACK T_SHORT T_CONTROL T_LONG Pos.eqb orb] in P.
  match type of P with (if ?b then _ else _) => destruct b eqn:E end.
  { exfalso. apply Z.leb_le in E. rewrite ?app_length in E. cbn [length] in E. unfold frame_obj, DATA_LEN in Ho. rewrite ?firstn_length in E. lia. }
  eexists. unfold mbus_frame_print, print_loop. change (Z.to_nat PRINT_BUFF) with 256%nat. unfold PRINT_BUFF. rewrite P. cbn [bind]. rewrite T. reflexivity.
Qed.
Print Assumptions C77_long_refuted.
(** C77, finding: the error return of mbus_frame_print is never taken: whatever the frames hold (a size that fits the data
    array assumed), the value is 0; a frame of unknown type is printed with -3 as its number of bytes. *)
Theorem C77_never_fails_refuted :
  forall fs, fs <> [] -> Forall (fun f => frame_obj f /\ (ftype f = 4 -> 0 <= data_size f <= 252)) fs ->
  exists x fs', mbus_frame_print fs = Ok (0, x, fs') /\
    forall f, fs = [f] -> ~ In (ftype f) [1; 2; 3; 4] ->
      x = cstr "mbus_frame_print: Dumping M-Bus frame [type " ++ fmt_d (ftype f) ++ cstr ", -3 bytes]: " ++ nl.
Proof.
  intros fs N H. assert (A : forall fs, Forall (fun f => frame_obj f /\ (ftype f = 4 -> 0 <= data_size f <= 252)) fs -> exists x fs', print_loop fs = Ok (0, x, fs')).
  { clear. intros fs H. induction H as [|f fs (Ho & Hs) H (x & fs' & IH)]; [exists [], []; reflexivity|].
    destruct (pack_bounds f (repeat 0 256) 256 Ho Hs) as (r & f' & b & E & _ & C & _); [rewrite repeat_length; lia|].
    cbn [print_loop]. change (Z.to_nat PRINT_BUFF) with 256%nat. unfold PRINT_BUFF. 
    assert (r <> -1).
    { pose proof (pack_spec f (repeat 0 256) 256 Ho Hs) as P. rewrite repeat_length in P. specialize (P ltac:(lia)). destruct (pack_bytes f) as [w|].
      - destruct (Z.leb_spec (Z.of_nat (length w)) 256); rewrite E in P; apply ok_inj2 in P; destruct P as [P _]; injection P; lia.
      - destruct P as (r' & g & P & ->). rewrite E in P. congruence. }
    rewrite E. cbn [bind]. destruct (Z.eqb_spec r (-1)); [contradiction|]. rewrite IH. cbn [bind]. eexists _, _. reflexivity. }
  destruct (A fs H) as (x & fs' & E). exists x, fs'. split; [destruct fs; [congruence|exact E]|]. clear A N.
  intros f -> T. inversion H as [|? ? (Ho & Hs) _]; subst. pose proof (pack_spec f (repeat 0 256) 256 Ho Hs) as P. rewrite repeat_length in P. specialize (P ltac:(lia)).
  unfold pack_bytes in P. cbn in T. destruct (Z.eqb_spec (ftype f) T_ACK) as [K|_]; [unfold T_ACK in K; lia|]. destruct (Z.eqb_spec (ftype f) T_SHORT) as [K|_]; [unfold T_SHORT in K; lia|].
  destruct (Z.eqb_spec (ftype f) T_CONTROL) as [K|_]; [unfold T_CONTROL in K; lia|]. destruct (Z.eqb_spec (ftype f) T_LONG) as [K|_]; [unfold T_LONG in K; lia|].
  destruct P as (r & f' & P & ->). unfold print_loop in E. change (Z.to_nat PRINT_BUFF) with 256%nat in E. unfold PRINT_BUFF in E. rewrite P in E. cbn [bind Z.eqb] in E.
  apply ok_inj2 in E. destruct E as [E _]. apply (f_equal snd) in E. cbn [snd] in E. rewrite <- E. rewrite app_nil_r. reflexivity.
Qed.
Print Assumptions C77_never_fails_refuted.

(** C77, the traffic log: with the dumping functions registered, one line for each monitored event, in order. *)
Theorem C77_log :
  forall clock tr, Forall (fun e => bytes (snd e)) (traffic tr) ->
  exists x, dump_log clock 0 tr = Ok x /\ says (log_lines clock 0 (traffic tr)) x.
Proof. intros clock tr H. exact (dump_log_says clock tr 0 H). Qed.
Print Assumptions C77_log.
(** C77: the log determines the traffic, whatever the times: which telegrams were sent, which bytes were received, in
    which order. *)
Theorem C77_log_unambiguous :
  forall clock clock' tr tr' x, (forall i, time_text (clock i)) -> (forall i, time_text (clock' i)) ->
  Forall (fun e => bytes (snd e)) (traffic tr) -> Forall (fun e => bytes (snd e)) (traffic tr') ->
  dump_log clock 0 tr = Ok x -> dump_log clock' 0 tr' = Ok x -> traffic tr = traffic tr'.
Proof.
  intros clock clock' tr tr' x T T' B B' E E'. destruct (dump_log_says clock tr 0 B) as (y & Ey & Sy), (dump_log_says clock' tr' 0 B') as (y' & Ey' & Sy').
  assert (y = x) by congruence. assert (y' = x) by congruence. subst. eapply log_inj; [exact T|exact T'|exact Sy|exact Sy'].
Qed.
Print Assumptions C77_log_unambiguous.
(** C77: one dumped line; without a label or bytes nothing is printed. The bytes of the line, given to mbus_hex2bin, are the
    dumped bytes again. *)
Theorem C77_hex_dump :
  forall stamp label bs, bytes bs -> exists x y z,
  mbus_hex_dump stamp (Some label) (Some bs) (length bs) = Ok x /\ says (dump_line stamp label bs) x /\
  x = y ++ z ++ nl /\ mbus_hex2bin (repeat 0 (length bs)) (length bs) z = Ok (length bs, bs) /\
  mbus_hex_dump stamp None (Some bs) (length bs) = Ok [] /\ mbus_hex_dump stamp (Some label) None (length bs) = Ok [].
Proof.
  intros stamp label bs H. destruct (hex_dump_line stamp label bs H) as (x & E & Sx). pose proof Sx as Sx'. rewrite <- (app_nil_r (dump_line stamp label bs)) in Sx'.
  apply dump_line_inv in Sx'. destruct Sx' as (s1 & s2 & rest & -> & S1 & S2 & R). apply says_nil in R. subst rest.
  eexists _, (cstr "[" ++ stamp ++ cstr "] " ++ label ++ cstr " (" ++ s1 ++ cstr "):"), s2. split; [exact E|]. split; [exact Sx|].
  split; [rewrite <- !app_assoc; reflexivity|]. split; [|split; [reflexivity|reflexivity]].
  pose proof (C46_converts (repeat 0 (length bs)) (length bs) s2 bs) as C. rewrite repeat_length in C. specialize (C ltac:(lia) (proj1 S2)). cbv zeta in C.
  rewrite firstn_all, Nat.sub_diag, skipn_all2, app_nil_r in C by (rewrite repeat_length; lia). exact C.
Qed.
Print Assumptions C77_hex_dump.
Definition ex_chain : list frame := [parsed Ack frame_zero; parsed (Short 0x5B 1) frame_zero; parsed (Long 0x08 1 0x72 [1; 2; 3]) frame_zero].
Example C77_nonvacuous :
  Forall2 (fun f t => frame_obj f /\ delimiters f /\ denotes f t /\ valid t /\ (length (wire t) <= 256)%nat) ex_chain [Ack; Short 0x5B 1; Long 0x08 1 0x72 [1; 2; 3]] /\
  (exists fs', mbus_frame_print ex_chain = Ok (0, cstr "mbus_frame_print: Dumping M-Bus frame [type 1, 1 bytes]: E5 " ++ nl ++
     cstr "mbus_frame_print: Dumping M-Bus frame [type 2, 5 bytes]: 10 5B 01 5C 16 " ++ nl ++
     cstr "mbus_frame_print: Dumping M-Bus frame [type 4, 12 bytes]: 68 06 06 68 08 01 72 01 02 03 81 16 " ++ nl, fs')) /\
  dump_log (fun _ => cstr "2026-11-18 08:00:00Z") 0 [OnSend true [0x10; 0x5B; 1; 0x5C; 0x16]; Read 1 (RBytes [0xE5]); OnRecv true [0xE5]] =
    Ok (cstr "[2026-11-18 08:00:00Z] SEND (005): 10 5B 01 5C 16" ++ nl ++ cstr "[2026-11-18 08:00:00Z] RECV (001): E5" ++ nl) /\
  time_text (cstr "2026-11-18 08:00:00Z").
Proof.
  split; [|split; [eexists; vm_compute; reflexivity|split; [vm_compute; reflexivity|split; apply notin_lit; reflexivity]]].
  assert (V : valid Ack /\ valid (Short 0x5B 1) /\ valid (Long 0x08 1 0x72 [1; 2; 3])).
  { split; [exact I|]. split; [cbn; unfold byte_range; intuition lia|]. cbn. unfold byte_range. repeat split; try (right; lia); try lia; try (left; lia). repeat constructor; lia. }
  destruct V as (V1 & V2 & V3).
  repeat (apply Forall2_cons || apply Forall2_nil); (split; [reflexivity|split; [|split; [apply denotes_parsed; [reflexivity|assumption]|split; [assumption|cbn; lia]]]]); unfold delimiters; cbn; intuition (try discriminate; try reflexivity).
Qed.

(** C78, variable data: a reply with any header and records, parsed and printed, gives a report of the header and of each record in order:
    number, DIF, DIFEs, VIF, VIFEs with their bits, length of the value; manufacturer blocks with their bytes. The function always
    returns -1. Partial: only for records with function instantaneous or error state (refutation). *)
Theorem C78_variable_partial :
  forall f h its t fd, carries f (h ++ enc_body its t) -> is_byte (control f) -> (control f / 64) mod 2 = 0 -> ctrl_info f = 0x72 ->
  length h = 12%nat -> Forall wf_item its -> wf_tail t -> Forall known_function (entries its t) ->
  exists fd' x, mbus_frame_data_parse f fd = Ok (0, fd') /\ mbus_frame_data_print fd' = Ok (-1, x) /\
    says (header_report h ++ entries_report 0 (entries its t)) x.
Proof.
  intros f h its t fd C B D CI Hl Hi Ht K. destruct (C27_dispatch f _ fd C B) as (_ & _ & _ & P & _). specialize (P D CI).
  rewrite (C22_parse_encoded f h its t (d_var fd) C Hl Hi Ht) in P. cbn [bind] in P.
  assert (Bh : bytes h). { destruct C as (_ & Bf & _ & F & _). assert (Bp : bytes (h ++ enc_body its t)). { rewrite <- F. unfold bytes in *. rewrite <- (firstn_skipn (length (h ++ enc_body its t)) (fdata f)) in Bf. apply Forall_app in Bf. apply Bf. } apply Forall_app in Bp. apply Bp. }
  destruct (variable_printed h its t Hl Bh Hi Ht K) as (x & E & S).
  eexists _, x. split; [apply P; destruct h; discriminate|]. split; [exact E|exact S].
Qed.
Print Assumptions C78_variable_partial.

(** C78, finding: the maximum and minimum values of a reply are printed as values during error state, all of them. *)
Theorem C78_function_refuted :
  forall a i, wf_rec a -> (a_dif a / 16) mod 4 = 1 \/ (a_dif a / 16) mod 4 = 2 ->
  function_name (a_dif a) = cstr (if (a_dif a / 16) mod 4 =? 1 then "Maximum value" else "Minimum value") /\
  exists x rest, print_record (obj a) i = Ok x /\
    says (dif_report i (a_dif a) (Word (cstr "Value during error state")) ++ rest) x.
Proof.
  intros a i W F. split; [unfold function_name; destruct F as [-> | ->]; reflexivity|].
  destruct (data_printed i a (Word (cstr "Value during error state")) W) as (x & E & S).
  - unfold printed_function. destruct F as [-> | ->]; reflexivity.
  - exists x. eexists. split; [exact E|exact S].
Qed.
Print Assumptions C78_function_refuted.
(** C78, finding: the values themselves and plain-text units are never printed: replies whose records differ only in them
    (same lengths of values) give the same text. *)
Theorem C78_values_refuted :
  forall rs rs' h n n' m m', Forall2 (fun a b => wf_rec a /\ wf_rec b /\ a_dif a = a_dif b /\ a_difes a = a_difes b /\ a_vif a = a_vif b /\ a_vifes a = a_vifes b /\ length (a_value a) = length (a_value b)) rs rs' ->
  mbus_data_variable_print (mkVar h (map obj rs) n m) = mbus_data_variable_print (mkVar h (map obj rs') n' m').
Proof.
  intros rs rs' h n n' m m' H. unfold mbus_data_variable_print. cbn [v_header v_records]. f_equal. 
  assert (A : forall i, print_records (map obj rs) i = print_records (map obj rs') i); [|rewrite A; reflexivity].
  induction H as [|a b rs rs' (Wa & Wb & E1 & E2 & E3 & E4 & E5) _ IH]; intros i; [reflexivity|]. cbn [map print_records]. rewrite IH. f_equal. clear IH.
  destruct Wa as (N1 & N2 & _). unfold print_record. cbv zeta. change (r_dif (obj a)) with (a_dif a). change (r_dif (obj b)) with (a_dif b). rewrite <- E1.
  destruct (Z.eqb_spec (a_dif a) 0x0F); [congruence|]. destruct (Z.eqb_spec (a_dif a) 0x1F); [congruence|]. cbn [orb obj r_ndife r_nvife r_len r_vif]. rewrite <- E2, <- E3, <- E4, <- E5.
  assert (Pd : forall k j, print_difes (obj a) j k = print_difes (obj b) j k). { induction k as [|k IH]; intros j; [reflexivity|]. cbn [print_difes obj r_dife]. rewrite <- E2. destruct (rd (pad 10 (a_difes a)) j); [|reflexivity]. cbn [bind]. fold (obj a) (obj b). rewrite IH. reflexivity. }
  assert (Pv : forall k j, print_vifes (obj a) j k = print_vifes (obj b) j k). { induction k as [|k IH]; intros j; [reflexivity|]. cbn [print_vifes obj r_vife]. rewrite <- E4. destruct (rd (pad 10 (a_vifes a)) j); [|reflexivity]. cbn [bind]. fold (obj a) (obj b). rewrite IH. reflexivity. }
  fold (obj a) (obj b). rewrite Pd, Pv. reflexivity.
Qed.
Print Assumptions C78_values_refuted.

(** C78, fixed data: identification, access number, status, function, and for both counters the medium, the unit and the value. *)
Theorem C78_fixed :
  forall f p fd, carries f p -> is_byte (control f) -> (control f / 64) mod 2 = 0 -> ctrl_info f = 0x73 -> length p = 16%nat ->
  exists fd' y, mbus_frame_data_parse f fd = Ok (0, fd') /\ fixed_layout p (d_fix fd') /\
    mbus_frame_data_print fd' = Ok (-1, y) /\ says (fixed_report (d_fix fd')) y.
Proof.
  intros f p fd C B D CI Hl. destruct (C27_dispatch f _ fd C B) as (_ & _ & P & _). specialize (P D CI ltac:(destruct p; discriminate)).
  destruct (C26_fixed_parse f p (d_fix fd) C) as [F _]. destruct (F Hl) as (x & E & Lx). rewrite E in P. cbn [bind] in P.
  assert (Bp : bytes p). { destruct C as (_ & Bf & _ & F' & _). rewrite <- F'. unfold bytes in *. rewrite <- (firstn_skipn (length p) (fdata f)) in Bf. apply Forall_app in Bf. apply Bf. }
  pose proof Lx as (Ep & L0 & L1 & L2). rewrite Ep in Bp. unfold bytes in Bp. repeat (rewrite ?Forall_app, ?Forall_cons_iff in Bp). destruct Bp as (B0 & (B1 & B2 & B3 & B4 & _) & B5 & B6).
  destruct (fixed_printed x) as (y & Ey & Sy); try assumption.
  eexists _, y. split; [exact P|]. cbn [d_fix]. split; [exact Lx|]. split; [exact Ey|exact Sy].
Qed.
Print Assumptions C78_fixed.
(** C78, error replies: the error code. *)
Theorem C78_error :
  forall f p fd, carries f p -> is_byte (control f) -> (control f / 64) mod 2 = 0 -> ctrl_info f = 0x70 ->
  exists fd' y, mbus_frame_data_parse f fd = Ok (0, fd') /\ mbus_frame_data_print fd' = Ok (-1, y) /\
    says [L "mbus_data_error_print: Error = "; V (Dec (hd 0 p)); NL] y.
Proof.
  intros f p fd C B D CI. destruct (C27_dispatch f _ fd C B) as (_ & P & _). eexists _, _. split; [exact (P D CI)|]. split; [reflexivity|].
  apply say_word. apply say_value; [apply shows_dec|]. apply say_nl_end.
Qed.
Print Assumptions C78_error.
Definition ex_print : list item := [Data (mkA 0x84 [0x50] 0x93 [] [0x3B] [1; 2; 3; 4])].
Example C78_nonvacuous :
  Forall wf_item ex_print /\ wf_tail (Some (true, [9; 8])) /\ Forall known_function (entries ex_print (Some (true, [9; 8]))) /\
  carries (reply (ex_header ++ enc_body ex_print (Some (true, [9; 8]))) 0) (ex_header ++ enc_body ex_print (Some (true, [9; 8]))) /\
  wf_rec (mkA 0x14 [] 0x13 [] [] [1; 2; 3; 4]) /\ (0x14 / 16) mod 4 = 1.
Proof.
  assert (W : wf_rec (mkA 0x84 [0x50] 0x93 [] [0x3B] [1; 2; 3; 4]) /\ wf_rec (mkA 0x14 [] 0x13 [] [] [1; 2; 3; 4])).
  { split; unfold wf_rec; cbn; repeat match goal with |- _ /\ _ => split end; try lia; try discriminate; try reflexivity;
    try (intros; reflexivity); try (repeat constructor; unfold is_byte; lia); try (intros; discriminate); vm_compute; repeat constructor; discriminate. }
  destruct W as [W1 W2]. split; [apply Forall_cons; [exact W1|apply Forall_nil]|]. split; [cbn; split; [lia|repeat constructor; unfold is_byte; lia]|].
  split; [repeat (apply Forall_cons || apply Forall_nil); cbn; auto|]. split; [|split; [exact W2|reflexivity]].
  apply reply_carries; [|unfold is_byte; lia|cbn; lia]. vm_compute. repeat constructor; discriminate.
Qed.
Example C78_text : exists fd x, mbus_frame_data_parse (reply (ex_header ++ enc_body ex_print (Some (true, [9; 8]))) 0) (mkFD (mkVar [] [] 0 0) (mkFix [] 0 0 0 0 [] []) 0 0) = Ok (0, fd) /\
  mbus_frame_data_print fd = Ok (-1, x) /\
  skipn (length x - 93) x = cstr "VENDOR DATA [size=2] = 09 08 " ++ nl ++ cstr "mbus_data_variable_print: More records follow in next telegram" ++ nl.
Proof. eexists _, _. split; [vm_compute; reflexivity|]. split; [vm_compute; reflexivity|]. vm_compute. reflexivity. Qed.
