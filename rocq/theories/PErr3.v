(** Proofs about the error texts: payloads. *)
From Coq Require Import String.
From Coq Require Import List.
From Verif Require Import CBase PBase CStr MFrame MCodec PCodec PCodec2 MVar SVar PVar PVar2 PVar3 MText MXml MSecond MErr SErr PErr PErr2.

Ltac nozero := intros Hz; vm_compute in Hz; repeat (destruct Hz as [Hz|Hz]; [discriminate Hz|]); exact Hz.
Lemma record_nozero l m : record_fault l m -> ~ In 0 m.
Proof. intros H. destruct H; nozero. Qed.
Lemma cut_nozero m : In m cut_texts -> ~ In 0 m.
Proof. intros [<-|[<-|[<-|[]]]]; nozero. Qed.
Definition faulty (l m : list Z) : Prop := record_fault l m \/ (cut_at_vif l /\ In m cut_texts).
Lemma faulty_nozero l m : faulty l m -> ~ In 0 m.
Proof. intros [H|[_ H]]; [eapply record_nozero; eassumption|apply cut_nozero; assumption]. Qed.

Definition drop_e {A} (x : res (Z * A * list Z)) : res (Z * A) := let* (r, a, e) := x in Ok (r, a).

Section Loop.
  Context (d : list Z) (n : nat) (Hb : bytes d) (Hn : (n <= List.length d)%nat).

  Lemma loop_drop : forall fuel e i dv, List.length e = 512%nat ->
    drop_e (records_loop_e fuel e d n i dv) = records_loop fuel d n i dv.
  Proof.
    induction fuel as [|fuel IH]; intros e i dv He; cbn [records_loop_e records_loop]; [reflexivity|].
    destruct (Nat.ltb_spec i n) as [Hi|]; [|reflexivity].
    rewrite rd_ok by lia. cbn [bind].
    destruct (Z.land (nth i d 0) 255 =? 47); [apply IH; exact He|].
    destruct ((nth i d 0 =? 15) || (nth i d 0 =? 31)).
    { destruct (parse_rest d n i (nth i d 0)) as [[r i']|]; cbn [bind]; [|reflexivity]. apply IH. exact He. }
    rewrite <- parse_record_erase.
    destruct (parse_record_e d n i) as [[[r i']|m]|] eqn:Ep; cbn [bind erase]; [apply IH; exact He| |reflexivity].
    assert (N : ~ In 0 m) by (eapply faulty_nozero, record_names; eassumption).
    destruct (say_ok e m He N) as (e' & Es & _). rewrite Es. reflexivity.
  Qed.

  (** The fault found lies behind whole records. *)
  Lemma loop_names : forall fuel e i dv r dv' e', List.length e = 512%nat -> (i <= n)%nat ->
    records_loop_e fuel e d n i dv = Ok (r, dv', e') ->
    (r = 0 /\ e' = e) \/
    (r = -1 /\ exists its l m, rem d n i = flat_map enc_item its ++ l /\ Forall wf_item its /\ ordinary l /\ faulty l m /\ says e' m).
  Proof.
    induction fuel as [|fuel IH]; intros e i dv r dv' e' He Hi0 H; cbn [records_loop_e] in H; [discriminate|].
    destruct (Nat.ltb_spec i n) as [Hi|Hi].
    2:{ apply ok_inj in H. left. split; congruence. }
    rewrite rd_ok in H by lia. cbn [bind] in H.
    pose proof (bytes_nth d i Hb ltac:(lia)) as HB. rewrite (landFF _ HB) in H.
    pose proof (rem_step d n i Hi Hn) as Er. set (b := nth i d 0) in *.
    destruct (Z.eqb_spec b 47) as [E2F|E2F].
    { apply IH in H; [|assumption|lia]. destruct H as [H|(-> & its & l & m & E & F & O & R & S1)]; [left; exact H|right].
      split; [reflexivity|]. exists (Filler :: its), l, m. rewrite Er, E, E2F. cbn [flat_map enc_item app].
      split; [reflexivity|]. split; [constructor; [exact I|exact F]|auto]. }
    destruct ((b =? 15) || (b =? 31)) eqn:Eb.
    { unfold parse_rest in H. destruct (copy_loop _ _ 0 d (i + 1)) as [x|]; cbn [bind] in H; [|discriminate].
      destruct fuel as [|fuel]; [discriminate|]. cbn [records_loop_e] in H.
      destruct (Nat.ltb_spec (i + 1 + (n - (i + 1))) n); [lia|]. apply ok_inj in H. left. split; congruence. }
    assert (Od : ordinary (rem d n i)).
    { rewrite Er. unfold ordinary. cbn [hd]. split; [|split]; lia. }
    destruct (parse_record_e d n i) as [[[rc i']|m]|] eqn:Ep; cbn [bind] in H; [| |discriminate].
    - pose proof (parse_record_erase d n i) as Ee. unfold erases in Ee. rewrite Ep in Ee. cbn [bind erase] in Ee.
      pose proof (parse_record_spec d n i Hb Hn Hi) as HS. rewrite <- Ee in HS.
      destruct (rp (rem d n i)) as [[[a rs]|]|] eqn:Erp; [| |discriminate].
      2:{ destruct HS as [HS|[HS _]]; discriminate. }
      destruct HS as (HS1 & HS2 & HS3). apply ok_inj in HS1. injection HS1 as -> ->.
      destruct Od as (O1 & O2 & O3).
      pose proof (rp_inv _ _ _ (rem_bytes d n i Hb) O1 O2 O3 Erp) as (EQ & Wf).
      apply IH in H; [|assumption|lia]. destruct H as [H|(-> & its & l & m & E & F & O & R & S1)]; [left; exact H|right].
      split; [reflexivity|]. exists (Data a :: its), l, m. rewrite EQ, HS2. cbn [flat_map enc_item]. rewrite <- app_assoc, <- E.
      split; [reflexivity|]. split; [constructor; [exact Wf|exact F]|auto].
    - assert (F : faulty (rem d n i) m) by (apply record_names; assumption).
      destruct (say_ok e m He (faulty_nozero _ _ F)) as (e1 & Es & Hs). rewrite Es in H. cbn [bind] in H.
      apply ok_inj in H. right. assert (r = -1 /\ e1 = e') as [-> ->] by (split; congruence).
      split; [reflexivity|]. exists [], (rem d n i), m. cbn [flat_map app]. split; [reflexivity|]. split; [constructor|]. auto.
  Qed.

  (** A fault behind whole records is found. *)
  Lemma loop_says : (n + 2 <= List.length d)%nat -> forall its fuel e i dv l m, List.length e = 512%nat ->
    rem d n i = flat_map enc_item its ++ l -> Forall wf_item its -> ordinary l -> record_fault l m -> (n - i < fuel)%nat ->
    exists dv' e', records_loop_e fuel e d n i dv = Ok (-1, dv', e') /\ says e' m.
  Proof.
    intros Hn2. induction its as [|it its IH]; intros fuel e i dv l m He E F O R Hf.
    - cbn [flat_map app] in E. destruct l as [|x l].
      { exfalso. inversion R; subst; cbn in *; try lia; discriminate. }
      destruct (rem_head d n Hb Hn _ _ _ E) as (Hi & Hx & Hr & HB).
      destruct fuel as [|fuel]; [lia|]. cbn [records_loop_e]. destruct (Nat.ltb_spec i n); [|lia].
      rewrite rd_ok by lia. cbn [bind]. rewrite Hx, (landFF _ HB). unfold ordinary in O. cbn [hd] in O. destruct O as (O1 & O2 & O3).
      destruct (Z.eqb_spec x 47); [contradiction|]. destruct (Z.eqb_spec x 15); [contradiction|]. destruct (Z.eqb_spec x 31); [contradiction|].
      cbn [orb]. rewrite (record_says d n Hb Hn2 i _ m E R). cbn [bind].
      destruct (say_ok e m He (record_nozero _ _ R)) as (e1 & Es & Hs). rewrite Es. cbn [bind]. eauto.
    - inversion_clear F as [|? ? W1 W2]. destruct it as [|a]; cbn [flat_map enc_item app wf_item] in *.
      + destruct (rem_head d n Hb Hn _ _ _ E) as (Hi & Hx & Hr & HB).
        destruct fuel as [|fuel]; [lia|]. cbn [records_loop_e]. destruct (Nat.ltb_spec i n); [|lia].
        rewrite rd_ok by lia. cbn [bind]. rewrite Hx, (landFF _ HB). change (47 =? 47) with true. cbv iota.
        apply (IH fuel e (i + 1)%nat dv l m); try assumption. lia.
      + rewrite <- app_assoc in E. pose proof W1 as (N1 & N2 & N3 & _).
        assert (Eh : exists t, enc_rec a = a_dif a :: t) by (unfold enc_rec; eauto). destruct Eh as (t & Eh).
        pose proof E as E'. rewrite Eh in E'. cbn [app] in E'.
        destruct (rem_head d n Hb Hn _ _ _ E') as (Hi & Hx & Hr & HB).
        destruct fuel as [|fuel]; [lia|]. cbn [records_loop_e]. destruct (Nat.ltb_spec i n); [|lia].
        rewrite rd_ok by lia. cbn [bind]. rewrite Hx, (landFF _ HB).
        destruct (Z.eqb_spec (a_dif a) 47); [contradiction|]. destruct (Z.eqb_spec (a_dif a) 15); [contradiction|].
        destruct (Z.eqb_spec (a_dif a) 31); [contradiction|]. cbn [orb].
        pose proof (parse_record_spec d n i Hb Hn Hi) as HS. rewrite E, (rp_enc _ _ W1) in HS. destruct HS as (HS1 & HS2 & HS3).
        pose proof (parse_record_erase d n i) as Ee. unfold erases in Ee. rewrite HS1 in Ee.
        destruct (parse_record_e d n i) as [[[rc i']|m']|]; cbn [bind erase] in Ee; try discriminate.
        apply ok_inj in Ee. injection Ee as -> ->. cbn [bind].
        apply (IH fuel e _ _ l m); try assumption; [symmetry; exact HS2|lia].
  Qed.
End Loop.

Lemma variable_drop e f dv p : carries f p -> List.length e = 512%nat ->
  drop_e (mbus_data_variable_parse_e e f dv) = mbus_data_variable_parse f dv.
Proof.
  intros Hc He. pose proof Hc as (HL & HB & Hs & Hf & Hle). unfold DATA_LEN in *.
  unfold mbus_data_variable_parse_e, mbus_data_variable_parse.
  destruct (Z.to_nat (data_size f) <? 12)%nat.
  - destruct (say_ok e (cstr "Variable header too short.") He ltac:(nozero)) as (e' & Es & _). rewrite Es. reflexivity.
  - destruct (copy_loop 12 (repeat 0 12) 0 (fdata f) 0); cbn [bind]; [|reflexivity].
    apply loop_drop; [exact HB|lia|exact He].
Qed.
Lemma fixed_drop e f df : List.length e = 512%nat -> drop_e (mbus_data_fixed_parse_e e f df) = mbus_data_fixed_parse f df.
Proof.
  intros He. unfold mbus_data_fixed_parse_e.
  destruct (negb (data_size f =? 16)) eqn:E.
  - destruct (say_ok e (cstr "Invalid length for fixed data.") He ltac:(nozero)) as (e' & Es & _). rewrite Es.
    unfold mbus_data_fixed_parse. rewrite E. reflexivity.
  - destruct (mbus_data_fixed_parse f df) as [[r x]|]; reflexivity.
Qed.

(** ** Hexadecimal numbers in texts *)
Lemma p2x_pair b : is_byte b -> fmt_p2x b = hex_pair b.
Proof.
  intros H. assert (G : (if list_eq_dec Z.eq_dec (fmt_p2x b) (hex_pair b) then true else false) = true).
  { revert b H. apply byte_cases. vm_compute. reflexivity. }
  destruct (list_eq_dec Z.eq_dec (fmt_p2x b) (hex_pair b)); [assumption|discriminate].
Qed.
