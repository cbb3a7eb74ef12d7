(** C86: the error text names the fault. *)
From Coq Require Import String.
From Coq Require Import List.
From Verif Require Import CBase PBase CStr MFrame SWire SFrame PFrame MCodec PCodec MVar SVar PVar PVar3 MText MXml SXml MSecond PropVar PropText PropXml MErr SErr PErr PErr2 PErr3 PErr4 PErr5 PErr6.

(** ** The buffer itself *)
(** At program start the text is empty; mbus_error_str_set stores the message, cut to 511 characters; with NULL it does
    nothing; mbus_error_reset stores the text no errors. *)
Theorem C86_set : forall e m, err_ok e -> ~ In 0 m ->
  (err_ok err_start /\ SErr.c_text (mbus_error_str err_start) = []) /\
  (exists e', mbus_error_str_set e (Some m) = Ok e' /\ says (mbus_error_str e') m) /\
  mbus_error_str_set e None = Ok e /\
  (exists e', mbus_error_reset e = Ok e' /\ says (mbus_error_str e') (cstr "no errors")).
Proof.
  intros e m [He _] Hm. split. { vm_compute. auto. }
  split; [exact (say_ok e m He Hm)|]. split; [reflexivity|]. apply say_ok; [exact He|nozero].
Qed.
Example C86_set_nonvacuous : err_ok err_start /\ ~ In 0 (repeat 65 600) /\
  exists e', mbus_error_str_set err_start (Some (repeat 65 600)) = Ok e' /\ SErr.c_text e' = repeat 65 511.
Proof. split; [vm_compute; auto|]. split; [intros H; apply repeat_spec in H; discriminate|]. eexists. split; vm_compute; reflexivity. Qed.

(** ** Checking a frame *)
(** mbus_frame_verify gives -1 exactly if the frame object has a fault; the text then names it; otherwise the text stays. *)
Theorem C86_verify : forall e f, err_ok e -> frame_obj f -> frame_bytes f -> is_byte (ftype f) -> (ftype f = 4 -> 0 <= data_size f <= 252) ->
  exists v e', mbus_frame_verify_e e (Some f) = Ok (v, e') /\ mbus_frame_verify f = Ok v /\
    ((v <> -1 /\ e' = e /\ forall m, ~ object_fault f m) \/
     (v = -1 /\ exists m, object_fault f m /\ says e' m /\ forall m', object_fault f m' -> m' = m)).
Proof.
  intros e f [He _] Ho Hb Ht Hd. destruct (verify_names e f He Ho Hb Ht Hd) as (v & e' & V1 & V2 & V3). exists v, e'.
  split; [exact V1|]. split; [exact V2|]. destruct V3 as [V3|(V3 & m & F & S1)]; [left; exact V3|].
  right. split; [exact V3|]. exists m. split; [exact F|]. split; [exact S1|]. intros m' F'. exact (object_fault_once _ _ _ F' F).
Qed.

Example C86_verify_nonvacuous :
  let f := mkF 0x10 0 0 0 0x5B 7 0 0x62 0x17 (repeat 0 252) 0 2 0 in
  frame_obj f /\ object_fault f (cstr "No frame stop") /\
  exists e', mbus_frame_verify_e err_start (Some f) = Ok (-1, e') /\ SErr.c_text e' = cstr "No frame stop".
Proof.
  intros f. split; [reflexivity|]. split.
  - apply OF_stop; [left; split; reflexivity| |left; reflexivity|discriminate]. left. split; [reflexivity|]. vm_compute. auto.
  - eexists. split; vm_compute; reflexivity.
Qed.

(** ** Parsing received bytes *)
(** mbus_parse answers as without texts; the bytes have a fault exactly if the result is negative, and code and text are
    those of the one fault; otherwise (accepted, or more bytes wanted) the text stays as it was. *)
Theorem C86_parse : forall e f data, err_ok e -> frame_obj f -> frame_bytes f -> bytes data ->
  exists r f' e', mbus_parse_e e (Some f) (Some data) = Ok (r, Some f', e') /\ mbus_parse f data = Ok (r, f') /\
    ((0 <= r /\ e' = e /\ forall r' m, ~ telegram_fault data r' m) \/
     (r < 0 /\ exists m, telegram_fault data r m /\ says e' m /\ forall r' m', telegram_fault data r' m' -> r' = r /\ m' = m)).
Proof.
  intros e f data [He _] Ho Hf Hb. destruct (parse_names e f data He Ho Hf Hb) as (r & f' & e' & P1 & P2 & P3).
  exists r, f', e'. split; [exact P1|]. split; [exact P2|]. destruct P3 as [P3|(m & F & R)]; [left; exact P3|].
  right. split; [exact (fault_negative _ _ _ F)|]. exists m. auto.
Qed.
Example C86_parse_nonvacuous : forall f, frame_obj f -> frame_bytes f ->
  telegram_fault [0x68; 3; 3; 0x68; 8; 5; 0x72; 0x80; 0x16] (-3) (cstr "Invalid checksum (0x80 != 0x7f)") /\
  telegram_fault [0x10; 0x41; 5; 0x46; 0x16] (-3) (cstr "Unknown Control Code 0x41") /\
  exists f' e', mbus_parse_e err_start (Some f) (Some [0x68; 3; 3; 0x68; 8; 5; 0x72; 0x80; 0x16]) = Ok (-3, Some f', e') /\
    SErr.c_text e' = cstr "Invalid checksum (0x80 != 0x7f)".
Proof.
  intros f Ho Hf.
  assert (F : telegram_fault [0x68; 3; 3; 0x68; 8; 5; 0x72; 0x80; 0x16] (-3) (cstr "Invalid checksum (0x80 != 0x7f)")).
  { apply (TF_long_sum 3 8 5 0x72 [] 0x80); [reflexivity| |vm_compute; discriminate]. unfold long_code. cbn. auto. }
  split; [exact F|].
  split; [apply (TF_short_control 0x41 5 0x46 0x16); unfold short_code; cbn; intuition discriminate|].
  destruct (C86_parse err_start f [0x68; 3; 3; 0x68; 8; 5; 0x72; 0x80; 0x16]) as (r & f' & e' & P1 & _ & P3); try assumption.
  { vm_compute. auto. } { vm_compute. repeat constructor; discriminate. }
  destruct P3 as [(_ & _ & P3)|(_ & m & _ & [_ S1] & U)]; [destruct (P3 _ _ F)|].
  destruct (U _ _ F) as [<- <-]. exists f', e'. split; [exact P1|]. rewrite S1. vm_compute. reflexivity.
Qed.

(** NULL arguments are refused with a text. *)
Theorem C86_null : forall e fr dat fdo f, err_ok e ->
  (fr = None \/ dat = None -> exists e', mbus_parse_e e fr dat = Ok (-1, fr, e') /\ says e' (cstr "Got null pointer to frame, data or zero data_size.")) /\
  (exists e', mbus_frame_verify_e e None = Ok (-1, e') /\ says e' (cstr "Got null pointer to frame.")) /\
  (exists e', mbus_frame_data_parse_e e None fdo = Ok (-1, fdo, e') /\ says e' (cstr "Got null pointer to frame.")) /\
  (exists e', mbus_frame_data_parse_e e (Some f) None = Ok (-1, None, e') /\ says e' (cstr "Got null pointer to data.")).
Proof.
  intros e fr dat fdo f [He _].
  assert (N : forall m, ~ In 0 m -> exists e', say e m = Ok e' /\ says e' m) by (intros; apply say_ok; assumption).
  split.
  { intros H. unfold mbus_parse_e. destruct (N (cstr "Got null pointer to frame, data or zero data_size.") ltac:(nozero)) as (e' & S1 & S2).
    exists e'. split; [|exact S2]. unfold parse_null. destruct H as [-> | ->]; [|destruct fr]; rewrite S1; reflexivity. }
  split; [|split].
  - destruct (N (cstr "Got null pointer to frame.") ltac:(nozero)) as (e' & S1 & S2). exists e'. split; [|exact S2]. unfold mbus_frame_verify_e. rewrite S1. reflexivity.
  - destruct (N (cstr "Got null pointer to frame.") ltac:(nozero)) as (e' & S1 & S2). exists e'. split; [|exact S2]. unfold mbus_frame_data_parse_e. rewrite S1. reflexivity.
  - destruct (N (cstr "Got null pointer to data.") ltac:(nozero)) as (e' & S1 & S2). exists e'. split; [|exact S2]. unfold mbus_frame_data_parse_e. rewrite S1. reflexivity.
Qed.

(** ** Parsing the data of a reply *)
Ltac carry := apply reply_carries; [vm_compute; repeat constructor; discriminate|split; vm_compute; reflexivity || discriminate|vm_compute; lia].
Lemma fault_short c ci p m : data_fault c ci p m -> (List.length m <= 511)%nat.
Proof.
  assert (R : forall l x, record_fault l x -> (List.length x <= 511)%nat) by (intros l x H; destruct H; vm_compute; lia).
  intros H. destruct H as [D|D C|D C P|D C P L|D C P L|h its l m D C L E W O F|h its l m D C L E W O F X];
    try (vm_compute; lia); [exact (R _ _ F)|].
  unfold cut_texts in X. cbn [In] in X. destruct X as [<-|[<-|[<-|[]]]]; vm_compute; lia.
Qed.
Lemma says_same e m m' : says e m -> says e m' -> (List.length m <= 511)%nat -> (List.length m' <= 511)%nat -> m = m'.
Proof. intros [_ A] [_ B] H H'. rewrite A in B. rewrite !firstn_all2 in B by assumption. exact B. Qed.

(** Whenever mbus_frame_data_parse returns: the answer is that of the parser without texts; success leaves the text; a
    failure leaves a text that names a fault of this reply. *)
Theorem C86_data_sound : forall e f p fd r fdo e', err_ok e -> carries f p -> is_byte (control f) -> is_byte (ctrl_info f) ->
  mbus_frame_data_parse_e e (Some f) (Some fd) = Ok (r, fdo, e') ->
  (exists fd', fdo = Some fd' /\ mbus_frame_data_parse f fd = Ok (r, fd')) /\
  ((r = 0 /\ e' = e) \/ (r = -1 /\ exists m, data_fault (control f) (ctrl_info f) p m /\ says e' m)).
Proof.
  intros e f p fd r fdo e' [He _] Hc Hk Hi H. split; [|exact (data_names e f p fd r fdo e' Hc Hk Hi He H)].
  pose proof (data_drop e f p fd Hc He) as X. rewrite H in X. destruct fdo as [fd'|].
  - exists fd'. split; [reflexivity|]. symmetry. exact X.
  - exfalso. pose proof (data_names e f p fd r None e' Hc Hk Hi He H) as N.
    unfold mbus_frame_data_parse_e in H.
    repeat match type of H with
    | (if ?b then _ else _) = _ => destruct b
    | bind ?x _ = Ok _ => destruct x as [[[? ?] ?]|]; cbn [bind] in H; try discriminate
    | bind ?x _ = Ok _ => destruct x as [?|]; cbn [bind] in H; try discriminate
    end; apply ok_inj in H; congruence.
Qed.

(** And unless the payload stops right where a VIF should follow, the fault is unique, is always reported, and no reply
    with a fault is accepted. *)
Theorem C86_data : forall e f p fd r fdo e', err_ok e -> carries f p -> is_byte (control f) -> is_byte (ctrl_info f) ->
  (List.length p <= 250)%nat -> ~ ends_cut p ->
  mbus_frame_data_parse_e e (Some f) (Some fd) = Ok (r, fdo, e') ->
  (r = 0 /\ e' = e /\ forall m, ~ data_fault (control f) (ctrl_info f) p m) \/
  (r = -1 /\ exists m, data_fault (control f) (ctrl_info f) p m /\ says e' m /\
    forall m', data_fault (control f) (ctrl_info f) p m' -> m' = m).
Proof.
  intros e f p fd r fdo e' [He Hzero] Hc Hk Hi Hp Hn H.
  pose proof (fun m F => data_says e f p fd m Hc Hk Hi He Hp F Hn) as S.
  destruct (data_names e f p fd r fdo e' Hc Hk Hi He H) as [[-> ->]|(-> & m & F & S1)].
  - left. split; [reflexivity|]. split; [reflexivity|]. intros m F. destruct (S m F) as (fd' & e2 & E & _). rewrite E in H. apply ok_inj in H. congruence.
  - right. split; [reflexivity|]. exists m. split; [exact F|]. split; [exact S1|]. intros m' F'.
    destruct (S m' F') as (fd' & e2 & E & S2). rewrite E in H. apply ok_inj in H. assert (e2 = e') as -> by congruence.
    exact (says_same e' m' m S2 S1 (fault_short _ _ _ _ F') (fault_short _ _ _ _ F)).
Qed.
Example C86_data_nonvacuous :
  let p := ex_header ++ enc_rec ex_rec1 ++ [0x0D; 0x13; 0xC5; 1; 2] in
  carries (reply p 0xEE) p /\
  data_fault 0x08 0x72 p (cstr "Premature end of record at data.") /\
  exists fd' e', mbus_frame_data_parse_e err_start (Some (reply p 0xEE)) (Some fd_zero) = Ok (-1, Some fd', e') /\
    SErr.c_text e' = cstr "Premature end of record at data.".
Proof.
  intros p. split; [carry|]. split.
  - apply (DF_record 0x08 0x72 p ex_header [Data ex_rec1] [0x0D; 0x13; 0xC5; 1; 2]); try reflexivity.
    + apply Forall_cons; [unfold ex_rec1; wf_example|apply Forall_nil].
    + unfold ordinary. cbn. lia.
    + apply (RF_lvar 0x0D [] 0x13 [] [] 0xC5 [1; 2]); [split; [reflexivity|vm_compute; lia]|split; [reflexivity|vm_compute; lia]|reflexivity|reflexivity|vm_compute; reflexivity].
  - do 2 eexists. split; vm_compute; reflexivity.
Qed.

(** The text is not a function of the payload: one that stops after a DIF gets texts chosen by bytes left in the frame
    object by an earlier telegram. *)
Theorem C86_stale_refuted : exists p f g e1 e2 x y, carries f p /\ carries g p /\ control f = control g /\ ctrl_info f = ctrl_info g /\
  mbus_frame_data_parse_e err_start (Some f) (Some fd_zero) = Ok (-1, x, e1) /\
  mbus_frame_data_parse_e err_start (Some g) (Some fd_zero) = Ok (-1, y, e2) /\
  SErr.c_text e1 = cstr "Too long variable length VIF." /\ SErr.c_text e2 = cstr "Premature end of record at VIF.".
Proof.
  exists (ex_header ++ [0x01]), (reply (ex_header ++ [0x01]) 0xFC), (reply (ex_header ++ [0x01]) 0x13).
  do 4 eexists. split; [carry|].
  split; [carry|]. split; [reflexivity|]. split; [reflexivity|].
  split; [vm_compute; reflexivity|]. split; [vm_compute; reflexivity|]. split; vm_compute; reflexivity.
Qed.

(** ** Secondary addresses *)
Theorem C86_secondary : forall e f p a e', err_ok e -> carries f p -> is_byte (control f) ->
  mbus_frame_get_secondary_address_e e f = Ok (a, e') ->
  mbus_frame_get_secondary_address f = Ok a /\
  ((a <> None /\ e' = e) \/
   (a = None /\ ctrl_info f <> 0x72 /\ says e' (cstr "Non-variable data response (can't get secondary address from response).")) \/
   (a = None /\ ctrl_info f = 0x72 /\ exists m, data_fault (control f) 0x72 p m /\ says e' m)).
Proof.
  intros e f p a e' [He Hzero] Hc Hk H. unfold mbus_frame_get_secondary_address_e in H. unfold mbus_frame_get_secondary_address.
  destruct (Z.eqb_spec (ctrl_info f) 0x72) as [E|E]; cbn [negb] in *.
  2:{ destruct (say_ok e (cstr "Non-variable data response (can't get secondary address from response).") He ltac:(nozero)) as (e1 & S1 & S2).
      rewrite S1 in H. cbn [bind] in H. apply ok_inj in H. assert (a = None /\ e1 = e') as [-> ->] by (split; congruence).
      split; [reflexivity|]. right. left. auto. }
  assert (Hi : is_byte (ctrl_info f)) by (rewrite E; unfold is_byte; lia).
  pose proof (fun r fdo e' => C86_data_sound e f p fd_zero r fdo e' (conj He Hzero) Hc Hk Hi) as D.
  destruct (mbus_frame_data_parse_e e (Some f) (Some fd_zero)) as [[[r fdo] e1]|]; cbn [bind] in H; [|discriminate].
  destruct (D _ _ _ eq_refl) as ((fd' & -> & D1) & D2). rewrite D1. cbn [bind].
  destruct D2 as [[-> ->]|(-> & m & F & S1)].
  - cbn [Z.eqb] in *. destruct (mbus_data_bcd_decode_hex (v_header (d_var fd')) 4) as [id|]; cbn [bind] in *; [|discriminate].
    destruct (rd (v_header (d_var fd')) 4) as [m0|]; cbn [bind] in *; [|discriminate].
    destruct (rd (v_header (d_var fd')) 5) as [m1|]; cbn [bind] in *; [|discriminate].
    destruct (rd (v_header (d_var fd')) 6) as [m2|]; cbn [bind] in *; [|discriminate].
    destruct (rd (v_header (d_var fd')) 7) as [m3|]; cbn [bind] in *; [|discriminate].
    apply ok_inj in H. split; [f_equal; congruence|]. left. split; congruence.
  - change (-1 =? -1) with true in *. cbv iota in *. apply ok_inj in H. assert (a = None /\ e1 = e') as [-> ->] by (split; congruence).
    split; [reflexivity|]. right. right. split; [reflexivity|]. split; [exact E|]. exists m. rewrite <- E at 1. auto.
Qed.

Theorem C86_select : forall e fr ad, err_ok e ->
  match fr, ad with
  | Some f, Some s =>
      if mbus_is_secondary_address s
      then mbus_frame_select_secondary_pack_e e fr ad = (let* (r, f') := mbus_frame_select_secondary_pack f s in Ok (r, Some f', e))
      else exists e', mbus_frame_select_secondary_pack_e e fr ad = Ok (-1, fr, e') /\ says e' (cstr "mbus_frame_select_secondary_pack: address is invalid.")
  | _, _ => exists e', mbus_frame_select_secondary_pack_e e fr ad = Ok (-1, fr, e') /\
      says e' (cstr "mbus_frame_select_secondary_pack: frame or address arguments are NULL.")
  end.
Proof.
  intros e fr ad [He _]. unfold mbus_frame_select_secondary_pack_e.
  assert (N : forall m, ~ In 0 m -> exists e', say e m = Ok e' /\ says e' m) by (intros; apply say_ok; assumption).
  destruct (N (cstr "mbus_frame_select_secondary_pack: frame or address arguments are NULL.") ltac:(nozero)) as (e1 & S1 & S2).
  destruct (N (cstr "mbus_frame_select_secondary_pack: address is invalid.") ltac:(nozero)) as (e2 & S3 & S4).
  change (cstr "mbus_frame_select_secondary_pack" ++ cstr ": address is invalid.") with (cstr "mbus_frame_select_secondary_pack: address is invalid.").
  change (cstr "mbus_frame_select_secondary_pack" ++ cstr ": frame or address arguments are NULL.") with (cstr "mbus_frame_select_secondary_pack: frame or address arguments are NULL.").
  destruct fr as [f|]; [destruct ad as [s|]|].
  - destruct (mbus_is_secondary_address s); cbn [negb]; [reflexivity|]. exists e2. rewrite S3. auto.
  - exists e1. rewrite S1. auto.
  - exists e1. rewrite S1. auto.
Qed.

Example C86_secondary_nonvacuous :
  carries (reply (ex_header ++ enc_rec ex_rec1) 0) (ex_header ++ enc_rec ex_rec1) /\
  mbus_frame_get_secondary_address_e err_start (reply (ex_header ++ enc_rec ex_rec1) 0) = Ok (Some (cstr "1234567824400107"), err_start) /\
  exists e', mbus_frame_get_secondary_address_e err_start (reply [1; 2] 0) = Ok (None, e') /\ SErr.c_text e' = cstr "Variable header too short.".
Proof. split; [carry|]. split; [vm_compute; reflexivity|]. eexists. split; vm_compute; reflexivity. Qed.

(** ** XML conversion *)
(** The text says which telegram was refused: the first or a later one; the reason itself is overwritten. *)
Theorem C86_xml : forall stamp e f p fs o e', err_ok e -> reply_obj f p -> Forall (fun x => reply_obj (fst x) (snd x)) fs ->
  mbus_frame_xml_e stamp e f (map fst fs) = Ok (o, e') ->
  mbus_frame_xml stamp f (map fst fs) = Ok o /\
  ((o_text o <> None /\ e' = e) \/
   (o_text o = None /\ says e' (cstr "M-bus data parse error.") /\ exists m, data_fault (control f) (ctrl_info f) p m) \/
   (o_text o = None /\ says e' (cstr "M-bus variable data parse error.") /\
     exists g q m, In (g, q) fs /\ data_fault (control g) (ctrl_info g) q m)).
Proof.
  intros stamp e f p fs o e' [He _] Hf HF H. pose proof (xml_names stamp e f p fs He Hf HF) as X. rewrite H in X.
  destruct X as [X1 [X2|[X2|X2]]]; split; try exact X1; [right; left; exact X2|left; exact X2|right; right; exact X2].
Qed.
Example C86_xml_nonvacuous :
  let p := ex_header ++ [0x0D; 0x13; 0xC5; 1; 2] in
  reply_obj (reply p 0) p /\
  exists e', mbus_frame_xml_e (fun _ => None) err_start (reply p 0) [] = Ok (mkOut None [] false, e') /\
    SErr.c_text e' = cstr "M-bus data parse error.".
Proof.
  intros p. split.
  - split; [carry|]. split; split; vm_compute; discriminate || reflexivity.
  - eexists. split; vm_compute; reflexivity.
Qed.

Print Assumptions C86_set.
Print Assumptions C86_verify.
Print Assumptions C86_parse.
Print Assumptions C86_null.
Print Assumptions C86_data_sound.
Print Assumptions C86_data.
Print Assumptions C86_stale_refuted.
Print Assumptions C86_secondary.
Print Assumptions C86_select.
Print Assumptions C86_xml.
