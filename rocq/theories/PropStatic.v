(** C93, C94: how long the texts of the library live, and that no answer depends on what was asked before. *)
From Coq Require Import String.
From Coq Require Import List.
From Verif Require Import CBase PBase CStr MFrame MCodec MVar MText MXml MUnit MXmlN MSecond SVar SXml PText2 PText3 MStatic SStatic
  PStatic PStatic2 PStatic3 PropText.

(** ** C94: answers do not depend on what happened before *)
(** A program makes any calls [history]; then it makes the call [x] and reads the answer. It finds what [plain] says, a
    function of the arguments of [x] alone: not of the history, nor of what unwritten memory contains ([d]). If the call
    is undefined it is undefined in every history. *)
Theorem C94_answer : forall d history m x, Forall well history -> calls (loaded d) history = Ok m -> well x ->
  match plain x with
  | Ok v => exists m' a, call m x = Ok (m', a) /\ read m' a = Ok v
  | UB => call m x = UB
  end.
Proof.
  intros d hs m x W E Wx. pose proof (call_answers m x (calls_sized hs _ m (loaded_sized d) W E) Wx) as X. unfold answers in X.
  destruct (plain x) as [v|]; [|exact X]. destruct X as (m' & a & E1 & R & _). eauto.
Qed.
Theorem C94_independent : forall d1 d2 history1 history2 m1 m2 x m1' a1 m2' a2, Forall well history1 -> Forall well history2 ->
  calls (loaded d1) history1 = Ok m1 -> calls (loaded d2) history2 = Ok m2 -> well x ->
  call m1 x = Ok (m1', a1) -> call m2 x = Ok (m2', a2) -> read m1' a1 = read m2' a2.
Proof.
  intros d1 d2 h1 h2 m1 m2 x m1' a1 m2' a2 W1 W2 E1 E2 Wx C1 C2.
  destruct (call_sized m1 x m1' a1 (calls_sized h1 _ m1 (loaded_sized d1) W1 E1) Wx C1) as (_ & _ & <- & _).
  destruct (call_sized m2 x m2' a2 (calls_sized h2 _ m2 (loaded_sized d2) W2 E2) Wx C2) as (_ & _ & <- & _). reflexivity.
Qed.
(** Nothing that has been asked can make a later call undefined. *)
Theorem C94_no_trap : forall d1 d2 history m x, Forall well history -> calls (loaded d1) history = Ok m -> well x ->
  (call m x = UB <-> call (loaded d2) x = UB).
Proof.
  intros d1 d2 hs m x W E Wx. pose proof (C94_answer d1 hs m x W E Wx) as A.
  pose proof (C94_answer d2 [] (loaded d2) x ltac:(constructor) eq_refl Wx) as B.
  destruct (plain x); [|split; auto]. destruct A as (? & ? & A & _), B as (? & ? & B & _). split; intros Q; congruence.
Qed.

(** ** C93: texts stay until a spoiler is called *)
Theorem C93_kept : forall d before x between m1 m2 a m3, Forall well before -> well x -> Forall well between ->
  calls (loaded d) before = Ok m1 -> call m1 x = Ok (m2, a) -> calls m2 between = Ok m3 ->
  (forall z, In z between -> ~ In (fn_of z) (spoilers (fn_of x))) ->
  read m3 a = plain x.
Proof.
  intros d before x between m1 m2 a m3 W1 Wx W2 E1 E2 E3 N.
  destruct (call_sized m1 x m2 a (calls_sized before _ m1 (loaded_sized d) W1 E1) Wx E2) as (S2 & _ & -> & _ & H).
  destruct a as [[|t|s]|r]; try reflexivity. cbn [read text_at].
  rewrite (calls_keep (fn_of x) s between m2 m3 S2 W2 (H s eq_refl) N E3). reflexivity.
Qed.
(** Documents and normalised records are the caller's own: no call changes them. *)
Theorem C93_own : forall d before x between m1 m2 a m3, Forall well before -> well x -> Forall well between ->
  calls (loaded d) before = Ok m1 -> call m1 x = Ok (m2, a) -> calls m2 between = Ok m3 ->
  In (fn_of x) [F_data_xml; F_frame_xml; F_data_xml_normalized; F_parse_fixed_record; F_parse_variable_record] ->
  read m3 a = plain x.
Proof.
  intros d before x between m1 m2 a m3 W1 Wx W2 E1 E2 E3 I. apply (C93_kept d before x between m1 m2 a m3 W1 Wx W2 E1 E2 E3).
  intros z _. cbn [In] in I. destruct I as [<-|[<-|[<-|[<-|[<-|[]]]]]]; cbn; tauto.
Qed.

(** Two texts of one of these functions cannot be held at once: after the second call the first answer reads as the
    second, whatever the two calls were. *)
Definition single (f : fn) : bool :=
  match f with
  | F_vib_unit | F_secondary_address | F_data_xml | F_frame_xml | F_data_xml_normalized | F_parse_fixed_record | F_parse_variable_record => false
  | _ => true
  end.
Lemma words_at x m a : words x = Ok (m, a) -> exists p, x = Ok (m, p) /\ a = Words p.
Proof. unfold words. intros E. apply bind_Ok in E. destruct E as ([m' p] & E1 & E2). apply ok_inj2 in E2. destruct E2 as [<- <-]. eauto. Qed.
Ltac ends H := repeat (apply bind_Ok in H; let z := fresh "z" in destruct H as (z & _ & H); try destruct z as [? ?]); apply ok_inj2 in H; destruct H as [_ <-].
Lemma form_at m s f m' p : s_form m s f = Ok (m', p) -> p = At s.
Proof. destruct f; cbn [s_form]; intros H; ends H; reflexivity. Qed.
Lemma single_at m x m' a : well x -> sized m -> single (fn_of x) = true -> call m x = Ok (m', a) -> exists s, homes (fn_of x) = [s] /\ a = Words (At s).
Proof.
  intros W Hm N E. pose proof (call_sized m x m' a Hm W E) as (_ & _ & _ & _ & H).
  destruct x; try discriminate N; cbn [call] in E; apply words_at in E; destruct E as (p & E & ->); cbn [fn_of homes]; eexists; (split; [reflexivity|]);
    f_equal; clear - E;
    first [ apply form_at in E; exact E
          | unfold s_maker in E; ends E; reflexivity | unfold s_product in E; ends E; reflexivity | unfold s_medium in E; ends E; reflexivity
          | unfold s_fixed_medium in E; ends E; reflexivity | unfold s_fixed_unit in E; ends E; reflexivity
          | unfold s_fixed_function in E; ends E; reflexivity | unfold s_prefix in E; ends E; reflexivity
          | unfold s_error in E; ends E; reflexivity | unfold s_unit in E; ends E; reflexivity | unfold s_value in E; ends E; reflexivity
          | unfold s_function in E; ends E; reflexivity
          | unfold s_header in E; destruct (fresh m 768); ends E; reflexivity ].
Qed.
Theorem C93_overwritten : forall d before x y m1 m2 a m3 b, Forall well before -> well x -> well y ->
  calls (loaded d) before = Ok m1 -> call m1 x = Ok (m2, a) -> call m2 y = Ok (m3, b) ->
  fn_of x = fn_of y -> single (fn_of x) = true ->
  read m3 a = plain y.
Proof.
  intros d before x y m1 m2 a m3 b W Wx Wy E1 E2 E3 F N.
  pose proof (calls_sized before _ m1 (loaded_sized d) W E1) as S1.
  destruct (call_sized m1 x m2 a S1 Wx E2) as (S2 & _).
  destruct (single_at m1 x m2 a Wx S1 N E2) as (s & Hs & ->). rewrite F in N, Hs.
  destruct (single_at m2 y m3 b Wy S2 N E3) as (s' & Hs' & ->). rewrite Hs in Hs'. injection Hs' as <-.
  destruct (call_sized m2 y m3 _ S2 Wy E3) as (_ & _ & -> & _). reflexivity.
Qed.

(** ** The table is exact: each entry is needed *)
Definition ex_h1 : list Z := [0x78; 0x56; 0x34; 0x12; 0x24; 0x40; 1; 7; 0x55; 0; 0; 0].
Definition ex_h2 : list Z := [0x01; 0x02; 0x03; 0x04; 0x01; 0x06; 8; 4; 0x56; 1; 2; 3].
Definition ex_a1 : arec := mkA 0x04 [] 0x13 [] [] [1; 2; 3; 4].
Definition ex_a2 : arec := mkA 0x14 [] 0x2D [] [] [5; 6; 7; 8].
Definition ex_x1 : dfix := mkFix [1; 2; 3; 4] 1 0 0x05 0x3E [1; 2; 3; 4] [1; 2; 3; 4].
Definition ex_x2 : dfix := mkFix [9; 8; 7; 6] 2 0x40 0x49 0x89 [1; 2; 3; 4] [1; 2; 3; 4].
Definition ex_fd (type : Z) : fdat := mkFD (mkVar ex_h2 [obj ex_a2] 1 0) ex_x2 type 7.
Definition ex_frame (ci : Z) (p : list Z) : frame :=
  mkF 0x68 (Z.of_nat (List.length p) + 3) (Z.of_nat (List.length p) + 3) 0x68 0x08 1 ci 0 0x16 (p ++ repeat 0 (252 - List.length p)) (Z.of_nat (List.length p)) 3 0.
Definition ex_var : frame := ex_frame 0x72 (ex_h2 ++ enc_body [Data ex_a2] None).
Definition ex_fix : frame := ex_frame 0x73 [9; 8; 7; 6; 2; 0x40; 0x49; 0x89; 1; 2; 3; 4; 1; 2; 3; 4].
Definition ex_err : frame := ex_frame 0x70 [7].
Definition no_stamp : Z -> option (list Z) := fun _ => None.

(** A call of [f], and a call of [g] to spoil it. *)
Definition first_ask (f : fn) : ask :=
  match f with
  | F_decode_manufacturer => A_decode_manufacturer 0x24 0x40
  | F_product_name => A_product_name [0; 0; 0; 0x10; 0x96; 0x15; 0x1D; 4; 0; 0; 0; 0]
  | F_variable_medium => A_variable_medium 7
  | F_fixed_medium => A_fixed_medium ex_x1
  | F_fixed_unit => A_fixed_unit 0x05
  | F_fixed_function => A_fixed_function 0
  | F_unit_prefix => A_unit_prefix 9
  | F_vif_unit => A_vif_unit 0x13
  | F_vib_unit => A_vib_unit (obj ex_a1)
  | F_error => A_error 1
  | F_record_unit => A_record_unit (obj ex_a1)
  | F_record_value => A_record_value (obj ex_a1)
  | F_record_function => A_record_function (obj ex_a1)
  | F_header_xml => A_header_xml ex_h1
  | F_secondary_address => A_secondary_address (ex_frame 0x72 (ex_h1 ++ enc_body [Data ex_a1] None))
  | F_data_xml => A_data_xml no_stamp (ex_fd 2)
  | F_frame_xml => A_frame_xml no_stamp ex_var []
  | F_data_xml_normalized => A_data_xml_normalized (ex_fd 2)
  | F_parse_fixed_record => A_parse_fixed_record 0 0x05 [1; 2; 3; 4]
  | F_parse_variable_record => A_parse_variable_record (obj ex_a1)
  end.
Definition about_fixed (f : fn) : bool := match f with F_fixed_medium | F_fixed_unit | F_fixed_function => true | _ => false end.
Definition second_ask (f g : fn) : ask :=
  let kind := if about_fixed f then 1 else if fn_dec f F_error then 3 else 2 in
  match g with
  | F_decode_manufacturer => A_decode_manufacturer 1 6
  | F_product_name => A_product_name [0; 0; 0; 0; 0x24; 0x40; 0; 0; 0; 0; 0; 0]
  | F_variable_medium => A_variable_medium 4
  | F_fixed_medium => A_fixed_medium ex_x2
  | F_fixed_unit => A_fixed_unit 0x49
  | F_fixed_function => A_fixed_function 0x40
  | F_unit_prefix => A_unit_prefix 3
  | F_vif_unit => A_vif_unit 0x2D
  | F_vib_unit => A_vib_unit (obj ex_a2)
  | F_error => A_error 7
  | F_record_unit => A_record_unit (obj ex_a2)
  | F_record_value => A_record_value (obj ex_a2)
  | F_record_function => A_record_function (obj ex_a2)
  | F_header_xml => A_header_xml ex_h2
  | F_secondary_address => A_secondary_address ex_var
  | F_data_xml => A_data_xml no_stamp (ex_fd kind)
  | F_frame_xml => A_frame_xml no_stamp (if kind =? 1 then ex_fix else if kind =? 3 then ex_err else ex_var) []
  | F_data_xml_normalized => A_data_xml_normalized (ex_fd kind)
  | F_parse_fixed_record => A_parse_fixed_record 0x40 0x05 [1; 2; 3; 4]
  | F_parse_variable_record => A_parse_variable_record (obj ex_a2)
  end.

(** After [x] its text can be read; after [y] the answer of [x] reads differently. *)
Definition spoils (x y : ask) : bool :=
  match call (loaded (fun _ => 0x55)) x with
  | Ok (m1, a) =>
      match call m1 y with
      | Ok (m2, _) =>
          match read m1 a, read m2 a with
          | Ok (Text (Some t)), Ok (Text (Some u)) => negb (leqb t u)
          | _, _ => false
          end
      | UB => false
      end
  | UB => false
  end.
Lemma spoils_means x y : spoils x y = true -> exists m1 a m2 b t u, call (loaded (fun _ => 0x55)) x = Ok (m1, a) /\ call m1 y = Ok (m2, b) /\
  read m1 a = Ok (Text (Some t)) /\ read m2 a = Ok (Text (Some u)) /\ u <> t.
Proof.
  unfold spoils. destruct (call (loaded (fun _ => 0x55)) x) as [[m1 a]|] eqn:Ex; [|discriminate]. destruct (call m1 y) as [[m2 b]|] eqn:Ey; [|discriminate].
  destruct (read m1 a) as [[[t|]| | |]|] eqn:E1; try discriminate. destruct (read m2 a) as [[[u|]| | |]|] eqn:E2; try discriminate.
  unfold leqb. destruct (list_eq_dec Z.eq_dec t u); [discriminate|]. intros _. exists m1, a, m2, b, t, u. split; [reflexivity|]. split; [exact Ey|]. split; [exact E1|]. split; [exact E2|congruence].
Qed.

Lemma ex_rec_ok : parsed_rec (obj ex_a1) /\ parsed_rec (obj ex_a2).
Proof. split; apply obj_parsed; unfold ex_a1, ex_a2; wf_example. Qed.
Lemma frame_ok ci p : bytes p -> (List.length p <= 252)%nat -> loaded_frame (ex_frame ci p).
Proof.
  intros Hp Hl. exists p. unfold carries, ex_frame, DATA_LEN. cbn [fdata data_size].
  rewrite app_length, repeat_length. split; [lia|]. split.
  - apply Forall_app. split; [assumption|]. apply Forall_forall. intros x Hx. apply repeat_spec in Hx. subst. unfold is_byte. lia.
  - split; [reflexivity|]. split; [|lia]. apply PBase.firstn_app_exact. reflexivity.
Qed.
Ltac lit_bytes := vm_compute; repeat constructor; discriminate.
Lemma fd_ok type : wf_fd (ex_fd type).
Proof.
  unfold wf_fd, ex_fd. cbn [d_var d_fix d_error v_header v_records]. split; [lit_bytes|]. split; [reflexivity|].
  split; [apply Forall_cons; [apply ex_rec_ok|apply Forall_nil]|]. split; [|unfold is_byte; lia]. unfold fixed_bytes, ex_x2. cbn [x_id x_tx_cnt x_status x_type1 x_type2 x_val1 x_val2].
  assert (B : bytes [1; 2; 3; 4]) by lit_bytes. assert (B' : bytes [9; 8; 7; 6]) by lit_bytes.
  split; [exact B'|]. split; [reflexivity|]. split; [exact B|]. split; [reflexivity|]. split; [exact B|]. split; [reflexivity|].
  unfold is_byte. lia.
Qed.
Lemma no_stamp_ok : stamps_ok no_stamp. Proof. intros i t H. discriminate. Qed.
Lemma first_fn f : fn_of (first_ask f) = f. Proof. destruct f; reflexivity. Qed.
Lemma second_fn f g : fn_of (second_ask f g) = g. Proof. destruct g; reflexivity. Qed.
Lemma first_well f : well (first_ask f).
Proof.
  destruct f; cbn [first_ask well]; try exact I; try apply ex_rec_ok; try (unfold is_byte; lia); try reflexivity; try (apply fd_ok);
    try (split; [lit_bytes|reflexivity]).
  - apply frame_ok; [lit_bytes|vm_compute; lia].
  - split; [apply no_stamp_ok|]. split; [apply fd_ok|unfold few; cbn; lia].
  - split; [apply no_stamp_ok|]. split; [apply frame_ok; [lit_bytes|vm_compute; lia]|]. split; [constructor|unfold few; cbn; lia].
Qed.
Lemma second_well f g : well (second_ask f g).
Proof.
  unfold second_ask. set (kind := if about_fixed f then 1 else if fn_dec f F_error then 3 else 2). clearbody kind.
  destruct g; cbn [well]; try exact I; try apply ex_rec_ok; try (unfold is_byte; lia); try reflexivity; try (apply fd_ok);
    try (split; [lit_bytes|reflexivity]).
  - apply frame_ok; [lit_bytes|vm_compute; lia].
  - split; [apply no_stamp_ok|]. split; [apply fd_ok|unfold few; cbn; lia].
  - split; [apply no_stamp_ok|]. split; [|split; [constructor|unfold few; cbn; lia]].
    destruct (kind =? 1); [apply frame_ok; [lit_bytes|vm_compute; lia]|]. destruct (kind =? 3); apply frame_ok; solve [lit_bytes|vm_compute; lia].
Qed.
(** Every entry of the table is needed: for each function and each of its spoilers there are two calls, legal from the
    first moment of a program, after which the text read through the first answer is another one. *)
Theorem C93_exact : forall f g, In g (spoilers f) ->
  exists d x y m1 a m2 b t u, fn_of x = f /\ fn_of y = g /\ well x /\ well y /\
    call (loaded d) x = Ok (m1, a) /\ call m1 y = Ok (m2, b) /\
    read m1 a = Ok (Text (Some t)) /\ read m2 a = Ok (Text (Some u)) /\ u <> t.
Proof.
  assert (T : forallb (fun f => forallb (fun g => spoils (first_ask f) (second_ask f g)) (spoilers f)) fns = true) by (vm_compute; reflexivity).
  intros f g H. rewrite forallb_forall in T. specialize (T f (fns_all f)). rewrite forallb_forall in T. specialize (T g H).
  apply spoils_means in T. destruct T as (m1 & a & m2 & b & t & u & T).
  exists (fun _ => 0x55), (first_ask f), (second_ask f g), m1, a, m2, b, t, u.
  split; [apply first_fn|]. split; [apply second_fn|]. split; [apply first_well|]. split; [apply second_well|exact T].
Qed.

(** ** Cases *)
(** A unit text survives two other calls; the conditions of [C93_kept] hold. *)
Definition some_text (x : res reading) : bool := match x with Ok (Text (Some (_ :: _))) => true | _ => false end.
Definition ex_between : list ask := [A_record_value (obj ex_a2); A_record_function (obj ex_a2); A_decode_manufacturer 1 6].
Example C93_nonvacuous :
  well (A_record_unit (obj ex_a1)) /\ Forall well ex_between /\
  (forall z, In z ex_between -> ~ In (fn_of z) (spoilers F_record_unit)) /\
  some_text (plain (A_record_unit (obj ex_a1))) = true /\
  match call (loaded (fun _ => 0x55)) (A_record_unit (obj ex_a1)) with Ok (m, _) => match calls m ex_between with Ok _ => true | UB => false end | UB => false end = true.
Proof.
  split; [apply ex_rec_ok|]. split.
  { apply Forall_cons; [apply ex_rec_ok|]. apply Forall_cons; [apply ex_rec_ok|]. apply Forall_cons; [split; unfold is_byte; lia|apply Forall_nil]. }
  split; [|split; vm_compute; reflexivity]. intros z [<-|[<-|[<-|[]]]]; cbn; intuition discriminate.
Qed.
(** A history that leaves every array used, and a call after it. *)
Definition ex_history : list ask := [A_frame_xml no_stamp ex_var []; A_data_xml no_stamp (ex_fd 1); A_error 9; A_secondary_address ex_var].
Example C94_nonvacuous :
  Forall well ex_history /\ match calls (loaded (fun _ => 0x55)) ex_history with Ok _ => true | UB => false end = true /\
  well (A_record_value (obj ex_a1)) /\ plain (A_record_value (obj ex_a1)) = Ok (Text (Some (cstr "67305985"))).
Proof.
  split.
  { apply Forall_cons; [apply (first_well F_frame_xml)|]. apply Forall_cons; [split; [apply no_stamp_ok|split; [apply fd_ok|unfold few; cbn; lia]]|].
    apply Forall_cons; [cbn; lia|]. apply Forall_cons; [apply (second_well F_error F_secondary_address)|apply Forall_nil]. }
  split; [vm_compute; reflexivity|]. split; [apply ex_rec_ok|vm_compute; reflexivity].
Qed.

Print Assumptions C94_answer.
Print Assumptions C94_independent.
Print Assumptions C94_no_trap.
Print Assumptions C93_kept.
Print Assumptions C93_own.
Print Assumptions C93_overwritten.
Print Assumptions C93_exact.
