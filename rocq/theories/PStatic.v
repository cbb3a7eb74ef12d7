(** Proofs about the static arrays: every text function answers with its text whatever the arrays contained, and writes
    only its own arrays. *)
From Coq Require Import String.
From Coq Require Import List.
From Verif Require Import CBase PBase CStr MFrame MCodec SCodec PCodec PCodec2 MVar MText MXml MUnit MXmlN MSecond SVar SXml SText
  PVar PVar2 PVar3 PText PText2 PText3 PXml PXml2 PXml3 MStatic.

Definition sized (m : smem) : Prop := forall s, List.length (buf m s) = size s.
(** Only the arrays in [L] may have changed. *)
Definition kept (L : list slot) (m m' : smem) : Prop := forall s, ~ In s L -> buf m' s = buf m s.

Lemma kept_refl L m : kept L m m. Proof. intros s _. reflexivity. Qed.
Lemma kept_trans L m1 m2 m3 : kept L m1 m2 -> kept L m2 m3 -> kept L m1 m3.
Proof. intros A B s H. rewrite B, A; auto. Qed.
Lemma kept_more L L' m m' : kept L m m' -> (forall s, In s L -> In s L') -> kept L' m m'.
Proof. intros A B s H. apply A. auto. Qed.
Lemma fresh_sized m n : sized m -> sized (snd (fresh m n)). Proof. intros H s. exact (H s). Qed.
Lemma fresh_kept L m n : kept L m (snd (fresh m n)). Proof. intros s _. reflexivity. Qed.
Lemma fresh_len m n : List.length (fst (fresh m n)) = n.
Proof. unfold fresh. cbn [fst]. rewrite map_length, seq_length. reflexivity. Qed.
Lemma set_same m s b : buf (set_buf m s b) s = b.
Proof. unfold set_buf. cbn [buf]. destruct (slot_dec s s); congruence. Qed.
Lemma set_other m s b x : x <> s -> buf (set_buf m s b) x = buf m x.
Proof. unfold set_buf. cbn [buf]. destruct (slot_dec x s); congruence. Qed.
Lemma set_sized m s b : sized m -> List.length b = size s -> sized (set_buf m s b).
Proof. intros H L x. destruct (slot_dec x s) as [->|N]; [rewrite set_same; exact L|rewrite set_other by exact N; apply H]. Qed.
Lemma set_kept m s b : kept [s] m (set_buf m s b).
Proof. intros x N. apply set_other. intros ->. apply N. left. reflexivity. Qed.

Lemma c_str_ok t rest : c_chars t -> c_str (t ++ 0 :: rest) = Ok t.
Proof.
  intros H. unfold c_str. replace (existsb (Z.eqb 0) (t ++ 0 :: rest)) with true.
  - rewrite c_text_exact by exact H. reflexivity.
  - symmetry. apply existsb_exists. exists 0. split; [apply in_or_app; right; left; reflexivity|reflexivity].
Qed.
Lemma c_str_has b : In 0 b -> c_str b = Ok (c_text b).
Proof.
  intros H. unfold c_str. replace (existsb (Z.eqb 0) b) with true; [reflexivity|].
  symmetry. apply existsb_exists. exists 0. split; [exact H|reflexivity].
Qed.

Lemma size_pos s : (4 <= size s)%nat.
Proof. destruct s; cbn [size]; try lia. Qed.

Lemma snprintf_ok dst n t : (1 <= n <= List.length dst)%nat ->
  snprintf_s dst 0 n t = Ok (cut n t ++ 0 :: skipn (List.length (cut n t) + 1) dst).
Proof.
  intros H. unfold snprintf_s, cut. destruct n as [|k]; [lia|]. replace (S k - 1)%nat with k by lia.
  rewrite put_list_ok by (rewrite app_length, firstn_length; cbn [List.length]; lia).
  cbn [firstn app]. rewrite app_length. cbn [List.length plus]. rewrite <- app_assoc. reflexivity.
Qed.

Lemma sprint_ok m s t : sized m -> c_chars t ->
  exists m', sprint m s t = Ok m' /\ sized m' /\ kept [s] m m' /\ text_at m' (At s) = Ok (cut (size s) t).
Proof.
  intros H C. unfold sprint. pose proof (size_pos s) as P. rewrite snprintf_ok by (rewrite H; lia). cbn [bind].
  eexists. split; [reflexivity|]. split; [|split; [apply set_kept|]].
  - apply set_sized; [exact H|]. rewrite app_length. cbn [List.length]. rewrite skipn_length, H. unfold cut. rewrite firstn_length. lia.
  - cbn [text_at]. rewrite set_same. apply c_str_ok. apply c_chars_cut. exact C.
Qed.
Lemma cut_all n t : (List.length t < n)%nat -> cut n t = t.
Proof. intros H. unfold cut. apply firstn_all2. lia. Qed.

(** The array holds the text [t] and its terminator. *)
Definition hold (m : smem) (s : slot) (t : list Z) : Prop := exists rest, buf m s = t ++ 0 :: rest.
Lemma hold_text m s t : hold m s t -> c_chars t -> text_at m (At s) = Ok t.
Proof. intros [rest E] C. cbn [text_at]. rewrite E. apply c_str_ok. exact C. Qed.
Lemma hold_kept L m m' s t : hold m s t -> kept L m m' -> ~ In s L -> hold m' s t.
Proof. intros [rest E] K N. exists rest. rewrite K by exact N. exact E. Qed.

Lemma add_first m s x : sized m -> (List.length x < size s)%nat ->
  exists m', add m s 0 x = Ok (m', List.length x) /\ sized m' /\ kept [s] m m' /\ hold m' s x.
Proof.
  intros H L. unfold add. change (size s <? 0)%nat with false. cbv iota. rewrite Nat.sub_0_r. rewrite snprintf_ok by (rewrite H; lia). cbn [bind].
  rewrite cut_all by exact L. eexists. split; [reflexivity|]. split; [|split; [apply set_kept|]].
  - apply set_sized; [exact H|]. rewrite app_length. cbn [List.length]. rewrite skipn_length, H. lia.
  - eexists. rewrite set_same. reflexivity.
Qed.
Lemma add_next m s t x : sized m -> hold m s t -> (List.length t + List.length x < size s)%nat ->
  exists m', add m s (List.length t) x = Ok (m', List.length (t ++ x)) /\ sized m' /\ kept [s] m m' /\ hold m' s (t ++ x).
Proof.
  intros H [rest E] L. unfold add. destruct (Nat.ltb_spec (size s) (List.length t)); [lia|].
  unfold snprintf_s. destruct (size s - List.length t)%nat as [|k] eqn:Ek; [lia|].
  rewrite (firstn_all2 x) by lia. pose proof (H s) as Hs. rewrite E, app_length in Hs. cbn [List.length] in Hs.
  rewrite E, put_list_ok by (rewrite !app_length; cbn [List.length]; lia). cbn [bind].
  rewrite firstn_app_exact by reflexivity. eexists. split; [rewrite (app_length t x); reflexivity|].
  split; [|split; [apply set_kept|]].
  - apply set_sized; [exact H|]. rewrite !app_length, skipn_length, !app_length. cbn [List.length]. lia.
  - eexists. rewrite set_same. rewrite !app_assoc. rewrite <- (app_assoc _ [0]). reflexivity.
Qed.

(** ** The text functions *)
(** The call answers, changes only the arrays in [L], and the answer, a literal or an array in [H], reads [t]. *)
Definition gives (m : smem) (L H : list slot) (t : list Z) (x : res (smem * ptr)) : Prop :=
  exists m' p, x = Ok (m', p) /\ sized m' /\ kept L m m' /\ text_at m' p = Ok t /\ (forall s, p = At s -> In s H).

Lemma sprint_gives m s n t : sized m -> ctext n t -> (n < size s)%nat ->
  gives m [s] [s] t (let* m := sprint m s t in Ok (m, At s)).
Proof.
  intros H [C L] N. destruct (sprint_ok m s t H C) as (m' & E & S1 & K & T). rewrite E. cbn [bind].
  exists m', (At s). rewrite cut_all in T by lia. split; [reflexivity|]. split; [exact S1|]. split; [exact K|]. split; [exact T|].
  intros x Ex. injection Ex as <-. left. reflexivity.
Qed.

Lemma medium_gives m b : sized m -> is_byte b -> gives m [S_medium] [S_medium] (mbus_data_variable_medium_lookup b) (s_medium m b).
Proof. intros H B. apply (sprint_gives m S_medium 40); [exact H|apply medium_ctext; exact B|cbn [size]; lia]. Qed.
Lemma fixed_unit_gives m b : sized m -> is_byte b -> gives m [S_fixed_unit] [S_fixed_unit] (mbus_data_fixed_unit b) (s_fixed_unit m b).
Proof. intros H B. apply (sprint_gives m S_fixed_unit 40); [exact H|apply fixed_unit_ctext; exact B|cbn [size]; lia]. Qed.
Lemma fixed_medium_gives m x : sized m -> gives m [S_fixed_medium] [S_fixed_medium] (mbus_data_fixed_medium x) (s_fixed_medium m x).
Proof. intros H. apply (sprint_gives m S_fixed_medium 40); [exact H|apply fixed_medium_ctext|cbn [size]; lia]. Qed.
Lemma function_gives m r : sized m -> gives m [S_function] [S_function] (mbus_data_record_function r) (s_function m r).
Proof. intros H. apply (sprint_gives m S_function 24); [exact H|apply function_ctext|cbn [size]; lia]. Qed.
Lemma fixed_function_gives m s : sized m -> gives m [S_fixed_function] [S_fixed_function] (mbus_data_fixed_function s) (s_fixed_function m s).
Proof. intros H. apply (sprint_gives m S_fixed_function 40); [exact H|apply fixed_function_ctext|cbn [size]; lia]. Qed.

Lemma maker_gives m b1 b2 man : sized m -> is_byte b1 -> is_byte b2 -> mbus_decode_manufacturer b1 b2 = Ok man ->
  gives m [S_maker] [S_maker] (c_text man) (s_maker m b1 b2).
Proof.
  intros H B1 B2 E. pose proof (H S_maker) as HL. cbn [size] in HL. unfold s_maker, mbus_decode_manufacturer in *.
  destruct (buf m S_maker) as [|a [|b [|c [|d [|e l]]]]] eqn:Eb; cbn [List.length] in HL; try lia. clear HL.
  unfold wr. cbn [List.length Nat.ltb Nat.leb upd bind].
  assert (I : mbus_data_int_decode [b1; b2; c; d] 2 = mbus_data_int_decode [b1; b2; 0; 0] 2) by reflexivity.
  rewrite I. destruct (mbus_data_int_decode [b1; b2; 0; 0] 2) as [[q id]|]; [|discriminate]. cbn [bind] in E |- *.
  injection E as <-. cbn [List.length Nat.ltb Nat.leb upd bind].
  set (c0 := Z.land (Z.shiftr id 10) 0x1F + 64). set (c1 := Z.land (Z.shiftr id 5) 0x1F + 64). set (c2 := Z.land id 0x1F + 64).
  eexists _, (At S_maker). split; [reflexivity|]. split; [apply set_sized; [exact H|reflexivity]|]. split; [apply set_kept|]. split.
  - cbn [text_at]. rewrite set_same. unfold c_str. replace (existsb (Z.eqb 0) [c0; c1; c2; 0]) with true; [reflexivity|].
    symmetry. apply existsb_exists. exists 0. split; [cbn; tauto|reflexivity].
  - intros x Ex. injection Ex as <-. left. reflexivity.
Qed.

Lemma product_gives m h : sized m -> bytes h -> List.length h = 12%nat ->
  gives m [S_product] [S_product]
    (product_name (Z.shiftl (nth 5 h 0) 8 + nth 4 h 0) (nth 6 h 0) (nth 7 h 0) (nth 3 h 0)) (s_product m h).
Proof.
  intros H B L. unfold s_product. rewrite !rd_ok by lia. cbn [bind].
  set (t := product_name _ _ _ _). assert (C : ctext 40 t) by apply product_ctext.
  destruct C as [C1 C2]. rewrite put_list_ok by (rewrite app_length, repeat_length; cbn [List.length size]; lia).
  cbn [bind firstn app]. eexists _, (At S_product). split; [reflexivity|]. rewrite <- app_assoc. cbn [app].
  split; [|split; [apply set_kept|split]].
  - apply set_sized; [exact H|]. rewrite !app_length. cbn [List.length]. rewrite skipn_length, ?app_length, repeat_length.
    cbn [List.length size]. lia.
  - cbn [text_at]. rewrite set_same. apply c_str_ok. exact C1.
  - intros x Ex. injection Ex as <-. left. reflexivity.
Qed.

Definition flat (f : form) : list Z :=
  match f with Plain t => t | Around a e b => a ++ mbus_unit_prefix e ++ b | Twice a b => a ++ b end.

Definition leqb (a b : list Z) : bool := if list_eq_dec Z.eq_dec a b then true else false.
Lemma flat_all (f : Z -> form) (g : Z -> list Z) :
  forallb (fun b => leqb (flat (f b)) (g b)) (map Z.of_nat (seq 0 256)) = true -> forall b, is_byte b -> flat (f b) = g b.
Proof.
  intros H b Hb. pose proof (byte_cases (fun b => leqb (flat (f b)) (g b)) H b Hb) as E. cbv beta in E. unfold leqb in E.
  destruct (list_eq_dec Z.eq_dec (flat (f b)) (g b)); [assumption|discriminate].
Qed.
Lemma vif_flat v : is_byte v -> flat (vif_form v) = mbus_vif_unit_lookup v.
Proof. apply flat_all. vm_compute. reflexivity. Qed.
Lemma fb_flat v : is_byte v -> flat (fb_form v) = mbus_vib_unit_lookup_fb v.
Proof. apply flat_all. vm_compute. reflexivity. Qed.
Lemma fd_flat v : is_byte v -> flat (fd_form v) = mbus_vib_unit_lookup_fd v.
Proof. apply flat_all. vm_compute. reflexivity. Qed.

Lemma gives_more m L L' H H' t x : gives m L H t x -> (forall s, In s L -> In s L') -> (forall s, In s H -> In s H') ->
  gives m L' H' t x.
Proof.
  intros (m' & p & E & S1 & K & T & P) A B. exists m', p. split; [exact E|]. split; [exact S1|].
  split; [exact (kept_more L L' m m' K A)|]. split; [exact T|]. intros s Es. apply B, P, Es.
Qed.
(** A call, then printing into the array [s]. *)
Lemma gives_after m m1 L L' H' t x : kept L m m1 -> gives m1 L' H' t x -> (forall s, In s L -> In s L') -> gives m L' H' t x.
Proof.
  intros K (m' & p & E & S1 & K' & T & P) A. exists m', p. split; [exact E|]. split; [exact S1|].
  split; [exact (kept_trans L' m m1 m' (kept_more L L' m m1 K A) K')|]. split; [exact T|exact P].
Qed.

Lemma ctext_mid n a t b : ctext n (a ++ t ++ b) -> ctext n t.
Proof.
  intros [C L]. apply Forall_app in C. destruct C as [_ C]. apply Forall_app in C. destruct C as [C _].
  split; [exact C|]. rewrite !app_length in L. lia.
Qed.

Lemma form_gives m s f n : sized m -> size s = 256%nat -> ctext n (flat f) -> (n < 256)%nat ->
  gives m [s; S_prefix] [s] (flat f) (s_form m s f).
Proof.
  intros H Z C N. destruct f as [t|a e b|a b]; cbn [s_form flat] in *.
  - apply (gives_more m [s] _ [s] [s]); [|cbn; tauto|cbn; tauto]. apply (sprint_gives m s n); [exact H|exact C|lia].
  - destruct (sprint_gives m S_prefix n (mbus_unit_prefix e) H (ctext_mid n a _ b C) ltac:(cbn [size]; lia))
      as (m1 & p & E & S1 & K & T & P).
    unfold s_prefix. rewrite E. cbn [bind]. rewrite T. cbn [bind].
    apply (gives_after m m1 [S_prefix] _ _ _ _ K); [|cbn; tauto].
    apply (gives_more m1 [s] _ [s] [s]); [|cbn; tauto|cbn; tauto]. apply (sprint_gives m1 s n); [exact S1|exact C|lia].
  - assert (L : (List.length (a ++ b) < 256)%nat) by (destruct C; lia). rewrite app_length in L.
    destruct (add_first m s a H ltac:(lia)) as (m1 & E1 & S1 & K1 & T1). rewrite E1. cbn [bind].
    destruct (add_next m1 s a b S1 T1 ltac:(lia)) as (m2 & E2 & S2 & K2 & T2). rewrite E2. cbn [bind].
    exists m2, (At s). split; [reflexivity|]. split; [exact S2|]. split.
    + apply (kept_more [s]); [|cbn; tauto]. exact (kept_trans _ _ _ _ K1 K2).
    + split; [apply hold_text; [exact T2|apply C]|]. intros x Ex. injection Ex as <-. left. reflexivity.
Qed.

(** The arrays behind [mbus_vib_unit_lookup]. *)
Definition vib_home : list slot := [S_fb; S_fd; S_vib; S_vif].
Definition vib_arrays : list slot := S_prefix :: vib_home.

Lemma vif_gives m v : sized m -> is_byte v -> gives m [S_vif; S_prefix] [S_vif] (mbus_vif_unit_lookup v) (s_vif m v).
Proof.
  intros H B. unfold s_vif. rewrite <- (vif_flat v B). apply (form_gives m S_vif _ 60); [exact H|reflexivity| |lia].
  rewrite (vif_flat v B). apply vif_ctext. exact B.
Qed.

Lemma vib_gives m r : sized m -> parsed_rec r ->
  exists u, mbus_vib_unit_lookup r = Ok u /\ ctext 255 u /\ gives m vib_arrays vib_home u (s_vib m r).
Proof.
  intros Hm ((B1 & B2 & B3 & B4 & B5 & B6 & B7 & B8) & D & V & E & E' & C & _).
  unfold mbus_vib_unit_lookup, s_vib. rewrite !rd_ok by lia. cbn [bind].
  assert (Hv := bytes_nth (r_vife r) 0 E ltac:(lia)). set (v0 := nth 0 (r_vife r) 0) in *.
  assert (LIT : forall t, ctext 255 t -> gives m vib_arrays vib_home t (Ok (m, Lit t))).
  { intros t Ht. exists m, (Lit t). split; [reflexivity|]. split; [exact Hm|]. split; [apply kept_refl|]. split; [reflexivity|discriminate]. }
  destruct (r_vif r =? 0xFB).
  { destruct (r_nvife r =? 0)%nat.
    - eexists. split; [reflexivity|]. split; [apply ctextb_ok; vm_compute; reflexivity|]. apply LIT. apply ctextb_ok. vm_compute. reflexivity.
    - eexists. split; [reflexivity|]. split; [apply (ctext_le 60); [apply fb_ctext; exact Hv|lia]|]. rewrite <- (fb_flat v0 Hv).
      apply (gives_more m [S_fb; S_prefix] _ [S_fb]); [|cbn; tauto|cbn; tauto].
      apply (form_gives m S_fb _ 60); [exact Hm|reflexivity| |lia]. rewrite (fb_flat v0 Hv). apply fb_ctext. exact Hv. }
  destruct (r_vif r =? 0xFD).
  { destruct (r_nvife r =? 0)%nat.
    - eexists. split; [reflexivity|]. split; [apply ctextb_ok; vm_compute; reflexivity|]. apply LIT. apply ctextb_ok. vm_compute. reflexivity.
    - eexists. split; [reflexivity|]. split; [apply (ctext_le 64); [apply fd_ctext; exact Hv|lia]|]. rewrite <- (fd_flat v0 Hv).
      apply (gives_more m [S_fd; S_prefix] _ [S_fd]); [|cbn; tauto|cbn; tauto].
      apply (form_gives m S_fd _ 64); [exact Hm|reflexivity| |lia]. rewrite (fd_flat v0 Hv). apply fd_ctext. exact Hv. }
  assert (CT : forall t, c_chars t -> ctext 255 (cut 256 t)).
  { intros t Ht. split; [apply c_chars_cut; exact Ht|]. unfold cut. rewrite firstn_length. lia. }
  destruct (r_vif r =? 0x7C).
  { eexists. split; [reflexivity|]. assert (Cc : c_chars (c_text (r_custom r))) by (apply c_text_chars; exact C).
    split; [apply CT; exact Cc|]. rewrite (c_str_has _ B8). cbn [bind].
    destruct (sprint_ok m S_vib _ Hm Cc) as (m' & E1 & S1 & K & T). rewrite E1. cbn [bind].
    exists m', (At S_vib). split; [reflexivity|]. split; [exact S1|]. split; [apply (kept_more _ _ _ _ K); cbn; tauto|].
    split; [exact T|]. intros x Ex. injection Ex as <-. cbn. tauto. }
  destruct ((r_vif r =? 0xFC) && (Z.land v0 0x78 =? 0x70)).
  { eexists. split; [reflexivity|]. assert (Cc : c_chars (c_text (r_custom r))) by (apply c_text_chars; exact C).
    pose proof (prefix_ctext v0 Hv) as Cp.
    assert (Ca : c_chars (mbus_unit_prefix (Z.land v0 0x07 - 6) ++ cstr " " ++ c_text (r_custom r))).
    { apply Forall_app. split; [apply Cp|]. apply Forall_app. split; [apply (ctextb_ok 1); vm_compute; reflexivity|exact Cc]. }
    split; [apply CT; exact Ca|].
    destruct (sprint_gives m S_prefix 6 _ Hm Cp ltac:(cbn [size]; lia)) as (m1 & p & E1 & S1 & K1 & T1 & _).
    unfold s_prefix. rewrite E1. cbn [bind]. rewrite T1. cbn [bind]. rewrite (c_str_has _ B8). cbn [bind].
    destruct (sprint_ok m1 S_vib _ S1 Ca) as (m' & E2 & S2 & K & T). rewrite E2. cbn [bind].
    exists m', (At S_vib). split; [reflexivity|]. split; [exact S2|]. split.
    { apply (kept_trans _ m m1 m'); [apply (kept_more _ _ _ _ K1); cbn; tauto|apply (kept_more _ _ _ _ K); cbn; tauto]. }
    split; [exact T|]. intros x Ex. injection Ex as <-. cbn. tauto. }
  eexists. split; [reflexivity|]. split; [apply (ctext_le 60); [apply vif_ctext; exact V|lia]|].
  apply (gives_more m [S_vif; S_prefix] _ [S_vif]); [|cbn; tauto|cbn; tauto]. apply vif_gives; assumption.
Qed.

Lemma unit_gives m r : sized m -> parsed_rec r ->
  exists u, mbus_data_record_unit r = Ok u /\ ctext 127 u /\ gives m (S_unit :: vib_arrays) [S_unit] u (s_unit m r).
Proof.
  intros Hm P. destruct (vib_gives m r Hm P) as (u & E & C & m1 & p & E1 & S1 & K1 & T1 & _).
  unfold mbus_data_record_unit, s_unit. rewrite E, E1. cbn [bind]. rewrite T1. cbn [bind].
  destruct C as [C1 C2]. destruct (sprint_ok m1 S_unit u S1 C1) as (m' & E2 & S2 & K & T). rewrite E2. cbn [bind].
  eexists. split; [reflexivity|]. split; [split; [apply c_chars_cut; exact C1|unfold cut; rewrite firstn_length; lia]|].
  exists m', (At S_unit). split; [reflexivity|]. split; [exact S2|]. split.
  { apply (kept_trans _ m m1 m'); [apply (kept_more _ _ _ _ K1); cbn; tauto|apply (kept_more _ _ _ _ K); cbn; tauto]. }
  split; [exact T|]. intros x Ex. injection Ex as <-. cbn. tauto.
Qed.

Lemma firstn_hold (t b : list Z) : firstn (List.length t + 1) b = t ++ [0] -> exists rest, b = t ++ 0 :: rest.
Proof.
  intros E. exists (skipn (List.length t + 1) b). rewrite <- (firstn_skipn (List.length t + 1) b) at 1.
  rewrite E, <- app_assoc. reflexivity.
Qed.
Lemma c_text_end a x : c_text (a ++ 0 :: x) = c_text a.
Proof. induction a as [|c a IH]; cbn [app c_text]; [reflexivity|]. rewrite IH. reflexivity. Qed.

Lemma decode_gives m r : sized m -> parsed_rec r ->
  exists t, mbus_data_record_decode r = Ok t /\ ctext 701 t /\ gives m [S_decode] [S_decode] t (s_decode m r).
Proof.
  intros Hm P. pose proof (Hm S_decode) as HL. cbn [size] in HL.
  destruct (decode_ok r P) as (t & E & C & _). exists t. split; [exact E|]. split; [exact C|].
  assert (BD : (r_len r <= 234)%nat /\ List.length (r_data r) = 234%nat /\ List.length (r_vife r) = 10%nat)
    by (destruct P as ((B1 & B2 & B3 & B4 & B5 & B6 & B7 & B8) & _); auto).
  destruct BD as (BD1 & BD2 & BD3). assert (Hb : bytes (r_data r)) by apply P.
  unfold s_decode. rewrite rd_ok by lia. cbn [bind]. rewrite land_0F by apply P.
  assert (DONE : forall b, (exists rest, b = t ++ 0 :: rest) \/ (In 0 b /\ c_text b = t) -> List.length b = 768%nat ->
    gives m [S_decode] [S_decode] t (Ok (set_buf m S_decode b, At S_decode))).
  { intros b Hx L. exists (set_buf m S_decode b), (At S_decode). split; [reflexivity|]. split; [apply set_sized; assumption|].
    split; [apply set_kept|]. split.
    - cbn [text_at]. rewrite set_same. destruct Hx as [[rest ->]|[I <-]]; [apply c_str_ok; apply C|apply c_str_has; exact I].
    - intros x Ex. injection Ex as <-. left. reflexivity. }
  destruct (Z.eqb_spec (r_dif r mod 16) 15) as [K|K].
  { rewrite decode_block in E by assumption. apply ok_inj in E. change (size S_decode) with 768%nat.
    destruct (bin_decode_spec (buf m S_decode) (r_data r) (r_len r) 768 Hb ltac:(lia) ltac:(lia)) as (b & Eb & Lb & Fb & _).
    rewrite Eb. cbn [bind]. apply DONE; [|congruence]. left. apply firstn_hold.
    replace (Nat.min (r_len r) ((768 - 1) / 3)) with (r_len r) in Fb by (change ((768 - 1) / 3)%nat with 255%nat; lia).
    rewrite (firstn_all2 (rev (firstn (r_len r) (r_data r)))) in Fb by (rewrite rev_length, firstn_length; lia). rewrite <- E. exact Fb. }
  destruct (Z.eqb_spec (r_dif r mod 16) 13) as [K2|K2].
  { assert (Hl : (1 <= r_len r <= 192)%nat). { apply P. rewrite land_0F by apply P. assumption. }
    replace (r_len r =? 0)%nat with false by (symmetry; apply Nat.eqb_neq; lia). rewrite rd_ok by lia. cbn [bind].
    destruct (Z.leb_spec (nth 0 (r_data r) 0) 0xBF) as [D|D].
    - rewrite decode_text in E by assumption. apply ok_inj in E.
      rewrite str_decode_spec by (rewrite ?skipn_length; lia). cbn [bind]. apply DONE.
      + right. split; [apply in_or_app; right; left; reflexivity|]. rewrite c_text_end. exact E.
      + rewrite app_length. cbn [List.length]. rewrite rev_length, firstn_length, !skipn_length. lia.
    - rewrite decode_binary in E by assumption. apply ok_inj in E. change (size S_decode) with 768%nat.
      assert (Hb1 : bytes (skipn 1 (r_data r))) by (apply bytes_skipn; exact Hb).
      destruct (bin_decode_spec (buf m S_decode) (skipn 1 (r_data r)) (r_len r - 1) 768 Hb1 ltac:(rewrite skipn_length; lia) ltac:(lia)) as (b & Eb & Lb & Fb & _).
      rewrite Eb. cbn [bind]. apply DONE; [|congruence]. left. apply firstn_hold.
      replace (Nat.min (r_len r - 1) ((768 - 1) / 3)) with (r_len r - 1)%nat in Fb by (change ((768 - 1) / 3)%nat with 255%nat; lia).
      rewrite (firstn_all2 (rev (firstn (r_len r - 1) _))) in Fb by (rewrite rev_length, firstn_length; lia). rewrite <- E. exact Fb. }
  rewrite E. cbn [bind]. apply (sprint_gives m S_decode 701); [exact Hm|exact C|cbn [size]; lia].
Qed.

Lemma value_gives m r : sized m -> parsed_rec r ->
  exists t, mbus_data_record_value r = Ok t /\ ctext 701 t /\ gives m [S_value; S_decode] [S_value] t (s_value m r).
Proof.
  intros Hm P. destruct (decode_gives m r Hm P) as (t & E & C & m1 & p & E1 & S1 & K1 & T1 & _).
  exists t. rewrite value_ok by exact P. split; [exact E|]. split; [exact C|].
  unfold s_value. rewrite E1. cbn [bind]. rewrite T1. cbn [bind].
  apply (gives_after m m1 [S_decode] _ _ _ _ K1); [|cbn; tauto].
  apply (gives_more m1 [S_value] _ [S_value] [S_value]); [|cbn; tauto|cbn; tauto].
  apply (sprint_gives m1 S_value 701); [exact S1|exact C|cbn [size]; lia].
Qed.

(** ** Escaping into a dirty local array *)
Definition same_to (n : nat) (a b : list Z) : Prop := List.length a = List.length b /\ firstn n a = firstn n b.

Lemma put_list_UB w : forall n x, (n <= List.length x)%nat -> (List.length x < n + List.length w)%nat -> put_list x n w = UB.
Proof.
  induction w as [|c w IH]; intros n x H G; cbn [List.length put_list] in *; [lia|].
  destruct (Nat.eq_dec n (List.length x)) as [->|N]; [rewrite wr_UB by lia; reflexivity|].
  rewrite wr_ok by lia. cbn [bind]. apply IH; rewrite upd_length; lia.
Qed.
Lemma put_same n w a b : same_to n a b -> (n <= List.length a)%nat ->
  match put_list a n w, put_list b n w with
  | Ok a', Ok b' => List.length a' = List.length a /\ (n + List.length w <= List.length a)%nat /\ same_to (n + List.length w) a' b' /\
                    firstn (n + List.length w) a' = firstn n a ++ w
  | UB, UB => True
  | _, _ => False
  end.
Proof.
  intros [L F] H. destruct (Nat.le_gt_cases (n + List.length w) (List.length a)) as [G|G].
  - rewrite !put_list_ok by lia.
    assert (Hf : List.length (firstn n a) = n) by (rewrite firstn_length; lia).
    assert (Hg : List.length (firstn n b) = n) by (rewrite firstn_length; lia).
    split; [rewrite !app_length, skipn_length; lia|]. split; [lia|]. split; [split; [rewrite !app_length, !skipn_length; lia|]|].
    + rewrite !app_assoc, !firstn_app_exact by (rewrite app_length; lia). rewrite F. reflexivity.
    + rewrite app_assoc, firstn_app_exact by (rewrite app_length; lia). reflexivity.
  - rewrite !put_list_UB by lia. exact I.
Qed.
Lemma same_less n k a b : same_to n a b -> (k <= n)%nat -> same_to k a b.
Proof.
  intros [L F] H. split; [exact L|]. replace (firstn k a) with (firstn k (firstn n a)) by (rewrite firstn_firstn; f_equal; lia).
  rewrite F, firstn_firstn. f_equal. lia.
Qed.

Lemma xml_loop_same : forall src a b len M, same_to len a b -> (len <= List.length a)%nat ->
  match xml_loop src a len M, xml_loop src b len M with
  | Ok (a', n), Ok (b', n') => n = n' /\ List.length a' = List.length a /\ same_to n a' b' /\ (n <= List.length a)%nat
  | UB, UB => True
  | _, _ => False
  end.
Proof.
  assert (Ent : forall c e, xml_entity c = Some e -> (1 <= List.length e <= 6)%nat).
  { intros c e. unfold xml_entity. repeat (destruct (_ =? _); [intros H; injection H as <-; cbn; lia|]). discriminate. }
  induction src as [|c src IH]; intros a b len M Sm Hl; cbn [xml_loop].
  - destruct (len + 6 <? M)%nat; [exact I|]. auto.
  - destruct (Nat.ltb_spec (len + 6) M) as [G|G]; [|auto].
    destruct (c =? 0); [auto|].
    assert (One : forall v, match (let* d := wr a len v in xml_loop src d (len + 1) M), (let* d := wr b len v in xml_loop src d (len + 1) M) with
      | Ok (a', n), Ok (b', n') => n = n' /\ List.length a' = List.length a /\ same_to n a' b' /\ (n <= List.length a)%nat
      | UB, UB => True | _, _ => False end).
    { intros v. rewrite !wr_put. pose proof (put_same len [v] a b Sm Hl) as P. cbn [List.length] in P.
      destruct (put_list a len [v]) as [a1|], (put_list b len [v]) as [b1|]; cbn [bind]; try tauto.
      destruct P as (P1 & P2 & P3 & _). rewrite <- P1 in P2. specialize (IH a1 b1 (len + 1)%nat M P3 P2).
      rewrite <- P1. exact IH. }
    destruct (c_iscntrl c); [apply One|]. destruct (xml_entity c) as [e|] eqn:Ee; [|apply One].
    pose proof (Ent c e Ee) as Le. unfold snprintf_s. destruct (M - len)%nat as [|k] eqn:Ek; [lia|].
    rewrite (firstn_all2 e) by lia. pose proof (put_same len (e ++ [0]) a b Sm Hl) as P.
    destruct (put_list a len (e ++ [0])) as [a1|], (put_list b len (e ++ [0])) as [b1|]; cbn [bind]; try tauto.
    destruct P as (P1 & P2 & P3 & _). rewrite app_length in P2, P3. cbn [List.length] in P2, P3.
    assert (P4 : same_to (len + List.length e) a1 b1) by (apply (same_less _ _ _ _ P3); lia).
    assert (P5 : (len + List.length e <= List.length a1)%nat) by lia.
    specialize (IH a1 b1 (len + List.length e)%nat M P4 P5). rewrite <- P1. exact IH.
Qed.

Lemma encode_same s loc : (1 <= List.length loc)%nat ->
  match encoded (List.length loc) s with
  | Ok e => exists b, mbus_str_xml_encode loc (s ++ [0]) (List.length loc) = Ok (0, b) /\ List.length b = List.length loc /\ c_str b = Ok e
  | UB => mbus_str_xml_encode loc (s ++ [0]) (List.length loc) = UB
  end.
Proof.
  intros H. unfold encoded, mbus_str_xml_encode.
  assert (Sm : same_to 0 loc (repeat 0 (List.length loc))) by (split; [rewrite repeat_length; reflexivity|reflexivity]).
  pose proof (xml_loop_same (s ++ [0]) loc (repeat 0 (List.length loc)) 0 (List.length loc) Sm ltac:(lia)) as X.
  destruct (xml_loop (s ++ [0]) loc 0 (List.length loc)) as [[a n]|], (xml_loop (s ++ [0]) (repeat 0 (List.length loc)) 0 (List.length loc)) as [[b n']|];
    cbn [bind]; try tauto.
  destruct X as (<- & L & Sx & Hn). rewrite !wr_put. pose proof (put_same n [0] a b Sx ltac:(lia)) as P.
  destruct (put_list a n [0]) as [a1|], (put_list b n [0]) as [b1|]; cbn [bind]; try tauto.
  destruct P as (P1 & P2 & (P3 & P4) & P5). cbn [List.length] in *. exists a1. split; [reflexivity|]. split; [lia|].
  rewrite <- (firstn_skipn (n + 1) a1), P5, <- app_assoc. cbn [app].
  rewrite <- (firstn_skipn (n + 1) b1), <- P4, P5, <- app_assoc. cbn [app].
  rewrite c_str_has by (apply in_or_app; right; left; reflexivity). rewrite !c_text_end. reflexivity.
Qed.

Lemma encoded_ctext n s : c_chars s -> (1 <= n)%nat -> exists e, encoded n s = Ok e /\ ctext (n - 1) e.
Proof.
  intros C H. unfold encoded.
  destruct (xml_encode_spec s [] (repeat 0 n) n C ltac:(rewrite repeat_length; lia)) as (k & d & _ & E & F & L & _).
  rewrite E. cbn [bind]. eexists. split; [reflexivity|].
  destruct (firstn_hold _ _ F) as [rest ->].
  assert (Ce : c_chars (escape_text (firstn k s))).
  { clear -C. assert (C' : c_chars (firstn k s)) by (apply c_chars_firstn; exact C). induction C' as [|c l Hc _ IH]; [constructor|].
    unfold escape_text in *. cbn [flat_map]. apply Forall_app. split; [|exact IH]. unfold escape.
    repeat (match goal with |- context [if ?b then _ else _] => destruct b end);
      first [apply (ctextb_ok 6); vm_compute; reflexivity | constructor; [exact Hc|constructor]]. }
  rewrite c_text_exact by exact Ce. split; [exact Ce|lia].
Qed.

(** ** The element texts *)
Lemma encode_at_ok m loc p t : text_at m p = Ok t -> c_chars t -> (1 <= List.length loc)%nat ->
  exists e b, encoded (List.length loc) t = Ok e /\ ctext (List.length loc - 1) e /\ encode_at m loc p = Ok b /\
              List.length b = List.length loc /\ c_str b = Ok e.
Proof.
  intros T C H. destruct (encoded_ctext (List.length loc) t C H) as (e & E & Ce). exists e.
  pose proof (encode_same t loc H) as X. rewrite E in X. destruct X as (b & Eb & Lb & Cb). exists b.
  split; [exact E|]. split; [exact Ce|]. split; [|split; [exact Lb|exact Cb]].
  unfold encode_at. rewrite T. cbn [bind]. rewrite Eb. reflexivity.
Qed.

(** While a text is being built in the array [s]: [T] so far, at most [n] characters; only arrays in [L] have changed. *)
Definition building (m0 : smem) (L : list slot) (s : slot) (n : nat) (T : list Z) (m : smem) : Prop :=
  sized m /\ kept L m0 m /\ hold m s T /\ ctext n T.
Lemma build_first m0 L s k x m : sized m -> kept L m0 m -> In s L -> ctext k x -> (k < size s)%nat ->
  exists m', add m s 0 x = Ok (m', List.length x) /\ building m0 L s k x m'.
Proof.
  intros S1 K I C N. destruct (add_first m s x S1 ltac:(destruct C; lia)) as (m' & E & S2 & K2 & T2).
  exists m'. split; [exact E|]. split; [exact S2|]. split; [|split; [exact T2|exact C]].
  apply (kept_trans L m0 m m' K). apply (kept_more [s]); [exact K2|]. intros y [<-|[]]. exact I.
Qed.
Lemma build_next m0 L s n T m k x : building m0 L s n T m -> In s L -> ctext k x -> (n + k < size s)%nat ->
  exists m', add m s (List.length T) x = Ok (m', List.length (T ++ x)) /\ building m0 L s (n + k) (T ++ x) m'.
Proof.
  intros (S1 & K & H & CT) I C N. destruct (add_next m s T x S1 H ltac:(destruct C, CT; lia)) as (m' & E & S2 & K2 & T2).
  exists m'. split; [exact E|]. split; [exact S2|]. split; [|split; [exact T2|apply ctext_app; assumption]].
  apply (kept_trans L m0 m m' K). apply (kept_more [s]); [exact K2|]. intros y [<-|[]]. exact I.
Qed.
Lemma build_call m0 L s n T m L' H t x : building m0 L s n T m -> gives m L' H t x -> (forall y, In y L' -> In y L) -> ~ In s L' ->
  exists m' p, x = Ok (m', p) /\ building m0 L s n T m' /\ text_at m' p = Ok t.
Proof.
  intros (S1 & K & Ho & CT) (m' & p & E & S2 & K2 & T2 & _) I N. exists m', p. split; [exact E|]. split; [|exact T2].
  split; [exact S2|]. split; [apply (kept_trans L m0 m m' K); apply (kept_more L'); assumption|].
  split; [exact (hold_kept L' m m' s T Ho K2 N)|exact CT].
Qed.
Lemma build_done m0 L s n T m : building m0 L s n T m -> gives m0 L [s] T (Ok (m, At s)).
Proof.
  intros (S1 & K & Ho & CT). exists m, (At s). split; [reflexivity|]. split; [exact S1|]. split; [exact K|].
  split; [apply hold_text; [exact Ho|apply CT]|]. intros x Ex. injection Ex as <-. left. reflexivity.
Qed.

Lemma ctext_line a k t b n : ctextb n a = true -> ctext k t -> ctextb n b = true -> ctext (n + (k + n)) (a ++ t ++ b).
Proof. intros A C B. apply ctext_app; [apply ctextb_ok; exact A|]. apply ctext_app; [exact C|apply ctextb_ok; exact B]. Qed.
Lemma num_ctext z : Z.abs z <= 256 ^ 8 -> ctext 48 (fmt_d z).
Proof. intros H. destruct (small_num z H) as [A B]. split; [apply plain_chars; exact A|exact B]. Qed.
Lemma hex_ctext n : 0 <= n < 16 ^ 16 -> ctext 16 (fmt_X n).
Proof.
  intros H. split; [|apply (fmt_X_len n 15); exact H]. pose proof (fmt_X_chars n ltac:(lia)) as C.
  eapply Forall_impl; [|exact C]. intros c Hc. unfold hex_char in Hc. lia.
Qed.
Lemma hex2_ctext n : is_byte n -> ctext 2 (fmt_X2 n).
Proof.
  intros H. revert n H. apply (byte_ctext fmt_X2 2). vm_compute. reflexivity.
Qed.
Lemma maker_ctext b1 b2 : is_byte b1 -> is_byte b2 -> exists man, mbus_decode_manufacturer b1 b2 = Ok man /\ ctext 3 (c_text man).
Proof.
  intros H1 H2. pose proof (decode_manufacturer_spec b1 b2 H1 H2) as E. cbv zeta in E. eexists. split; [exact E|].
  set (u := b1 + 256 * b2). cbn [c_text].
  pose proof (Z.mod_pos_bound (u / 1024) 32 ltac:(lia)). pose proof (Z.mod_pos_bound (u / 32) 32 ltac:(lia)). pose proof (Z.mod_pos_bound u 32 ltac:(lia)).
  destruct (Z.eqb_spec ((u / 1024) mod 32 + 64) 0); [lia|]. destruct (Z.eqb_spec ((u / 32) mod 32 + 64) 0); [lia|].
  destruct (Z.eqb_spec (u mod 32 + 64) 0); [lia|]. cbn [c_text]. change (0 =? 0) with true. cbv iota.
  split; [|cbn; lia]. repeat constructor; lia.
Qed.

Definition header_arrays : list slot := [S_header; S_maker; S_product; S_medium].

Ltac inlist := cbn; tauto.
Ltac outlist := cbn; intuition discriminate.
Ltac line Hb C :=
  let m' := fresh "m" in let E := fresh "E" in
  match goal with |- context [add ?m ?s (List.length ?T) ?x] =>
    destruct (build_next _ _ _ _ _ _ _ x Hb ltac:(inlist) C ltac:(cbn [size]; lia)) as (m' & E & Hb')
  end; rewrite E; cbn [bind]; clear E Hb; rename Hb' into Hb.
Ltac call Hb G :=
  let m' := fresh "m" in let p := fresh "p" in let E := fresh "E" in let T := fresh "T" in
  destruct (build_call _ _ _ _ _ _ _ _ _ _ Hb (G _ (proj1 Hb)) ltac:(inlist) ltac:(outlist)) as (m' & p & E & Hb' & Tx);
  rewrite E; cbn [bind]; clear E Hb; rename Hb' into Hb.
Ltac lit := apply ctextb_ok; vm_compute; reflexivity.

Lemma header_gives m h : sized m -> bytes h -> List.length h = 12%nat ->
  exists t, mbus_data_variable_header_xml h = Ok t /\ ctext 4000 t /\ gives m header_arrays [S_header] t (s_header m h).
Proof.
  intros Hm Hb Hl. assert (B : forall k, (k < 12)%nat -> is_byte (nth k h 0)) by (intros k Hk; apply bytes_nth; [exact Hb|lia]).
  unfold mbus_data_variable_header_xml, s_header. cbn [fst snd].
  pose proof (fresh_len m 768) as Lloc. pose proof (fresh_sized m 768 Hm) as S0. pose proof (fresh_kept header_arrays m 768) as K0.
  destruct (fresh m 768) as [loc m1]. cbn [fst snd] in Lloc, S0, K0.
  rewrite bcd_hex_spec by (try assumption; lia).
  assert (Hid : 0 <= SCodec.le (firstn 4 h) < 16 ^ 16).
  { pose proof (le_bounds (firstn 4 h) (bytes_firstn 4 h Hb)) as X. rewrite firstn_length, Nat.min_l in X by lia. change (Z.of_nat 4) with 4 in X. lia. }
  assert (R : forall k, (k < 12)%nat -> rd h k = Ok (nth k h 0)) by (intros k Hk; apply rd_ok; lia).
  set (id := SCodec.le (firstn 4 h)) in *. cbn [bind].
  rewrite (R 3%nat), (R 4%nat), (R 5%nat), (R 6%nat), (R 7%nat), (R 8%nat), (R 9%nat), (R 10%nat), (R 11%nat) by lia. cbn [bind].
  destruct (maker_ctext (nth 4 h 0) (nth 5 h 0) (B 4%nat ltac:(lia)) (B 5%nat ltac:(lia))) as (man & Em & Cman). rewrite Em. cbn [bind].
  set (prod := product_name (Z.shiftl (nth 5 h 0) 8 + nth 4 h 0) (nth 6 h 0) (nth 7 h 0) (nth 3 h 0)).
  assert (Cp : ctext 40 prod) by apply product_ctext.
  assert (Cm : ctext 40 (mbus_data_variable_medium_lookup (nth 7 h 0))) by (apply medium_ctext, B; lia).
  destruct (build_first m header_arrays S_header 23 (cstr "    <SlaveInformation>" ++ nl) m1 S0 K0 ltac:(inlist) ltac:(apply ctextb_ok; vm_compute; reflexivity) ltac:(cbn [size]; lia)) as (m2 & E2 & B2).
  rewrite E2. cbn [bind]. clear E2.
  line B2 (ctext_line (cstr "        <Id>") 16 (fmt_X id) (cstr "</Id>" ++ nl) 12 ltac:(vm_compute; reflexivity) (hex_ctext id Hid) ltac:(vm_compute; reflexivity)).
  call B2 (fun m S => maker_gives m (nth 4 h 0) (nth 5 h 0) man S (B 4%nat ltac:(lia)) (B 5%nat ltac:(lia)) Em).
  rewrite Tx. cbn [bind]. clear Tx.
  line B2 (ctext_line (cstr "        <Manufacturer>") 3 (c_text man) (cstr "</Manufacturer>" ++ nl) 22 ltac:(vm_compute; reflexivity) Cman ltac:(vm_compute; reflexivity)).
  assert (Cv : forall k, (k < 12)%nat -> ctext 48 (fmt_d (nth k h 0))) by (intros k Hk; apply num_ctext; pose proof (B k Hk) as X; unfold is_byte in X; lia).
  line B2 (ctext_line (cstr "        <Version>") 48 (fmt_d (nth 6 h 0)) (cstr "</Version>" ++ nl) 17 ltac:(vm_compute; reflexivity) (Cv 6%nat ltac:(lia)) ltac:(vm_compute; reflexivity)).
  call B2 (fun m S => product_gives m h S Hb Hl).
  destruct (encode_at_ok _ loc _ _ Tx (proj1 Cp) ltac:(lia)) as (ep & loc2 & Eep & Cep & El & Ll & Ec). rewrite El. cbn [bind]. rewrite Ec. cbn [bind]. clear Tx El Ec.
  rewrite Lloc in *. fold prod in Eep. rewrite Eep. cbn [bind].
  line B2 (ctext_line (cstr "        <ProductName>") 767 ep (cstr "</ProductName>" ++ nl) 21 ltac:(vm_compute; reflexivity) Cep ltac:(vm_compute; reflexivity)).
  call B2 (fun m S => medium_gives m (nth 7 h 0) S (B 7%nat ltac:(lia))).
  destruct (encode_at_ok _ loc2 _ _ Tx (proj1 Cm) ltac:(lia)) as (em & loc3 & Eem & Cem & El & Ll2 & Ec). rewrite El. cbn [bind]. rewrite Ec. cbn [bind]. clear Tx El Ec.
  rewrite Ll in *. rewrite Eem. cbn [bind].
  line B2 (ctext_line (cstr "        <Medium>") 767 em (cstr "</Medium>" ++ nl) 16 ltac:(vm_compute; reflexivity) Cem ltac:(vm_compute; reflexivity)).
  line B2 (ctext_line (cstr "        <AccessNumber>") 48 (fmt_d (nth 8 h 0)) (cstr "</AccessNumber>" ++ nl) 22 ltac:(vm_compute; reflexivity) (Cv 8%nat ltac:(lia)) ltac:(vm_compute; reflexivity)).
  line B2 (ctext_line (cstr "        <Status>") 2 (fmt_X2 (nth 9 h 0)) (cstr "</Status>" ++ nl) 16 ltac:(vm_compute; reflexivity) (hex2_ctext _ (B 9%nat ltac:(lia))) ltac:(vm_compute; reflexivity)).
  assert (Cs : ctext 46 (cstr "        <Signature>" ++ fmt_X2 (nth 11 h 0) ++ fmt_X2 (nth 10 h 0) ++ cstr "</Signature>" ++ nl)).
  { apply (ctext_le (19 + (2 + (2 + 13)))); [|lia]. apply ctext_app; [lit|]. apply ctext_app; [apply hex2_ctext, B; lia|].
    apply ctext_app; [apply hex2_ctext, B; lia|lit]. }
  line B2 Cs.
  assert (Ce : ctext 30 (cstr "    </SlaveInformation>" ++ nl ++ nl)) by lit. line B2 Ce.
  eexists. split; [reflexivity|]. clear -B2.
  match type of B2 with building _ _ _ ?n ?T _ =>
    match goal with |- ctext _ ?t /\ _ => assert (ET : t = T) by (rewrite <- ?app_assoc; reflexivity); rewrite ET end end.
  split; [apply (ctext_le _ _ _ (proj2 (proj2 (proj2 B2)))); lia|]. apply (build_done _ _ _ _ _ _ B2).
Qed.

(** ** A data record *)
Lemma lor_int a b : 0 <= a < 2 ^ 31 -> 0 <= b < 2 ^ 31 -> 0 <= Z.lor a b < 2 ^ 31.
Proof.
  intros [A1 A2] [B1 B2]. split; [apply Z.lor_nonneg; lia|].
  destruct (Z.eq_dec (Z.lor a b) 0) as [->|N]; [lia|]. apply Z.log2_lt_pow2; [pose proof (proj2 (Z.lor_nonneg a b)); lia|].
  rewrite Z.log2_lor by lia.
  assert (forall x, 0 <= x < 2 ^ 31 -> Z.log2 x < 31).
  { intros x Hx. destruct (Z.eq_dec x 0) as [->|]; [cbn; lia|]. apply Z.log2_lt_pow2; lia. }
  pose proof (H a ltac:(lia)). pose proof (H b ltac:(lia)). lia.
Qed.
Lemma int_shl_range x k s : 0 <= x -> int_shl x k = Ok s -> 0 <= s < 2 ^ 31.
Proof.
  intros H. unfold int_shl. destruct (32 <=? k); [discriminate|]. unfold int_op. match goal with |- (if ?b then _ else _) = _ -> _ => destruct b eqn:E end; [|discriminate].
  intros X. apply ok_inj in X. subst s. unfold CBase.in_int, INT_MAX, INT_MIN in E.
  assert (0 <= 2 ^ k) by (apply Z.pow_nonneg; lia). split; [apply Z.mul_nonneg_nonneg; lia|lia].
Qed.
Lemma storage_loop_range : forall k j l bit r s, 0 <= r < 2 ^ 31 -> storage_loop k j l bit r = Ok s -> 0 <= s < 2 ^ 31.
Proof.
  induction k as [|k IH]; intros j l bit r s H E; cbn [storage_loop] in E; [apply ok_inj in E; subst; exact H|].
  apply bind_Ok in E. destruct E as (b & _ & E). apply bind_Ok in E. destruct E as (x & Ex & E).
  apply IH in E; [exact E|]. apply lor_int; [exact H|]. apply (int_shl_range _ _ _) in Ex; [exact Ex|]. apply Z.land_nonneg. right. lia.
Qed.
Lemma tariff_loop_range : forall k j l bit r s, 0 <= r < 2 ^ 31 -> tariff_loop k j l bit r = Ok s -> 0 <= s < 2 ^ 31.
Proof.
  induction k as [|k IH]; intros j l bit r s H E; cbn [tariff_loop] in E; [apply ok_inj in E; subst; exact H|].
  apply bind_Ok in E. destruct E as (b & _ & E). apply bind_Ok in E. destruct E as (x & Ex & E).
  apply IH in E; [exact E|]. apply lor_int; [exact H|]. apply (int_shl_range _ _ _) in Ex; [exact Ex|].
  apply Z.shiftr_nonneg, Z.land_nonneg. right. lia.
Qed.
Lemma device_loop_range : forall k j l bit r s, 0 <= r < 2 ^ 31 -> device_loop k j l bit r = Ok s -> 0 <= s < 2 ^ 31.
Proof.
  induction k as [|k IH]; intros j l bit r s H E; cbn [device_loop] in E; [apply ok_inj in E; subst; exact H|].
  apply bind_Ok in E. destruct E as (b & _ & E). apply bind_Ok in E. destruct E as (x & Ex & E).
  apply IH in E; [exact E|]. apply lor_int; [exact H|]. apply (int_shl_range _ _ _) in Ex; [exact Ex|].
  apply Z.shiftr_nonneg, Z.land_nonneg. right. lia.
Qed.
Lemma storage_num r s : mbus_data_record_storage_number r = Ok s -> ctext 48 (fmt_d s).
Proof.
  intros E. apply num_ctext. apply storage_loop_range in E; [lia|].
  split; [apply Z.shiftr_nonneg, Z.land_nonneg; right; lia|]. rewrite Z.shiftr_div_pow2 by lia.
  assert (Z.land (r_dif r) 0x40 <= 0x40); [|lia].
  change 0x40 with (2 ^ 6). destruct (Z.testbit (r_dif r) 6) eqn:T.
  - replace (Z.land (r_dif r) (2 ^ 6)) with (2 ^ 6); [lia|]. apply Z.bits_inj'. intros n Hn. rewrite Z.land_spec, Z.pow2_bits_eqb by lia.
    destruct (Z.eqb_spec 6 n) as [<-|]; [rewrite T; reflexivity|rewrite andb_false_r; reflexivity].
  - replace (Z.land (r_dif r) (2 ^ 6)) with 0; [lia|]. apply Z.bits_inj'. intros n Hn. rewrite Z.bits_0, Z.land_spec, Z.pow2_bits_eqb by lia.
    destruct (Z.eqb_spec 6 n) as [<-|]; [rewrite T; reflexivity|rewrite andb_false_r; reflexivity].
Qed.
Lemma tariff_num r s : mbus_data_record_tariff r = Ok s -> ctext 48 (fmt_d s).
Proof.
  unfold mbus_data_record_tariff. intros E. apply num_ctext.
  destruct (0 <? r_ndife r)%nat; [apply tariff_loop_range in E; lia|apply ok_inj in E; subst; cbn; lia].
Qed.
Lemma device_num r s : mbus_data_record_device r = Ok s -> ctext 48 (fmt_d s).
Proof.
  unfold mbus_data_record_device. intros E. apply num_ctext.
  destruct (0 <? r_ndife r)%nat; [apply device_loop_range in E; lia|apply ok_inj in E; subst; cbn; lia].
Qed.

Definition record_arrays : list slot := [S_record; S_function; S_unit; S_prefix; S_fb; S_fd; S_vib; S_vif; S_value; S_decode].

(** From the value element to the end of the record. *)
Definition record_tail (st : option (list Z)) (value : list Z) : list Z :=
  (cstr "        <Value>" ++ value ++ cstr "</Value>" ++ nl) ++
  (match st with Some t => cstr "        <Timestamp>" ++ t ++ cstr "</Timestamp>" ++ nl | None => [] end) ++
  cstr "    </DataRecord>" ++ nl ++ nl.

Lemma tail_gives m0 n T m loc r st v value : building m0 record_arrays S_record n T m -> (n <= 2500)%nat -> List.length loc = 768%nat ->
  parsed_rec r -> (forall t, st = Some t -> ctext 21 t) -> mbus_data_record_value r = Ok v -> encoded 768 v = Ok value ->
  ctext 4000 (T ++ record_tail st value) /\
  gives m0 record_arrays [S_record] (T ++ record_tail st value)
   (let* (m, p) := s_value m r in
    let* loc := encode_at m loc p in
    let* value := c_str loc in
    let* (m, n) := add m S_record (List.length T) (cstr "        <Value>" ++ value ++ cstr "</Value>" ++ nl) in
    let* (m, n) :=
      (match st with
       | Some t => add m S_record n (cstr "        <Timestamp>" ++ t ++ cstr "</Timestamp>" ++ nl)
       | None => Ok (m, n)
       end) in
    let* (m, _) := add m S_record n (cstr "    </DataRecord>" ++ nl ++ nl) in
    Ok (m, At S_record)).
Proof.
  intros Hb Hn Hl P Hst Ev Ee. destruct (value_gives m r (proj1 Hb) P) as (v' & Ev' & Cv & G). rewrite Ev in Ev'. apply ok_inj in Ev'. subst v'.
  destruct (build_call _ _ _ _ _ _ _ _ _ _ Hb G ltac:(inlist) ltac:(outlist)) as (m1 & p & E & Hb1 & Tx). rewrite E. cbn [bind]. clear E Hb G.
  destruct (encode_at_ok _ loc _ _ Tx (proj1 Cv) ltac:(lia)) as (e & loc2 & Een & Ce & El & Ll & Ec). rewrite El. cbn [bind]. rewrite Ec. cbn [bind].
  rewrite Hl in Een, Ce. rewrite Ee in Een. apply ok_inj in Een. subst e. clear Tx El Ec. change (768 - 1)%nat with 767%nat in Ce.
  line Hb1 (ctext_line (cstr "        <Value>") 767 value (cstr "</Value>" ++ nl) 15 ltac:(vm_compute; reflexivity) Ce ltac:(vm_compute; reflexivity)).
  assert (Cc : ctext 30 (cstr "    </DataRecord>" ++ nl ++ nl)) by lit. unfold record_tail.
  destruct st as [t|].
  - line Hb1 (ctext_line (cstr "        <Timestamp>") 21 t (cstr "</Timestamp>" ++ nl) 19 ltac:(vm_compute; reflexivity) (Hst t eq_refl) ltac:(vm_compute; reflexivity)).
    line Hb1 Cc. pose proof (build_done _ _ _ _ _ _ Hb1) as D. pose proof (proj2 (proj2 (proj2 Hb1))) as CT.
    rewrite <- !app_assoc in D. rewrite <- !app_assoc in CT. rewrite <- !app_assoc. split; [apply (ctext_le _ _ _ CT); lia|exact D].
  - cbn [bind]. line Hb1 Cc. pose proof (build_done _ _ _ _ _ _ Hb1) as D. pose proof (proj2 (proj2 (proj2 Hb1))) as CT. cbn [app].
    rewrite <- !app_assoc in D. rewrite <- !app_assoc in CT. rewrite <- !app_assoc. split; [apply (ctext_le _ _ _ CT); lia|exact D].
Qed.

Lemma record_gives m r i fc st : sized m -> parsed_rec r -> Z.abs i <= 256 ^ 8 -> Z.abs fc <= 256 ^ 8 ->
  (forall t, st = Some t -> ctext 21 t) ->
  match mbus_data_variable_record_xml r i fc st with
  | Ok t => ctext 4000 t /\ gives m record_arrays [S_record] t (s_record m r i fc st)
  | UB => s_record m r i fc st = UB
  end.
Proof.
  intros Hm P Hi Hf Hst. unfold mbus_data_variable_record_xml, s_record.
  pose proof (fresh_len m 768) as Lloc. pose proof (fresh_sized m 768 Hm) as S0. pose proof (fresh_kept record_arrays m 768) as K0.
  destruct (fresh m 768) as [loc m1]. cbn [fst snd] in Lloc, S0, K0.
  destruct (value_gives m r Hm P) as (v & Ev & Cv & _). rewrite Ev.
  destruct (encoded_ctext 768 v (proj1 Cv) ltac:(lia)) as (value & Ee & _).
  set (head := if 0 <=? fc then _ else _).
  assert (Ch : ctext 200 head).
  { unfold head. destruct (0 <=? fc).
    - apply (ctext_le (20 + (48 + (10 + (48 + 3))))); [|lia]. apply ctext_app; [lit|]. apply ctext_app; [apply num_ctext; exact Hi|].
      apply ctext_app; [lit|]. apply ctext_app; [apply num_ctext; exact Hf|lit].
    - apply (ctext_le (20 + (48 + 3))); [|lia]. apply ctext_app; [lit|]. apply ctext_app; [apply num_ctext; exact Hi|lit]. }
  clearbody head.
  destruct (build_first m record_arrays S_record 200 head m1 S0 K0 ltac:(inlist) Ch ltac:(cbn [size]; lia)) as (m2 & E2 & B2).
  rewrite E2. cbn [bind]. clear E2 S0 K0 m1.
  destruct (r_dif r =? 0x0F).
  { cbn [bind]. rewrite Ee. cbn [bind].
    assert (Cx : ctext 60 (cstr "        <Function>Manufacturer specific</Function>" ++ nl)) by lit. line B2 Cx.
    destruct (tail_gives _ _ _ _ loc r st v value B2 ltac:(lia) Lloc P Hst Ev Ee) as [T1 T2].
    replace (head ++ (cstr "        <Function>Manufacturer specific</Function>" ++ nl) ++ cstr "        <Value>" ++ value ++ cstr "</Value>" ++ nl ++
      match st with Some t => cstr "        <Timestamp>" ++ t ++ cstr "</Timestamp>" ++ nl | None => [] end ++ cstr "    </DataRecord>" ++ nl ++ nl)
      with ((head ++ cstr "        <Function>Manufacturer specific</Function>" ++ nl) ++ record_tail st value)
      by (unfold record_tail; rewrite <- !app_assoc; reflexivity).
    split; [exact T1|exact T2]. }
  destruct (r_dif r =? 0x1F).
  { cbn [bind]. rewrite Ee. cbn [bind].
    assert (Cx : ctext 60 (cstr "        <Function>More records follow</Function>" ++ nl)) by lit. line B2 Cx.
    destruct (tail_gives _ _ _ _ loc r st v value B2 ltac:(lia) Lloc P Hst Ev Ee) as [T1 T2].
    replace (head ++ (cstr "        <Function>More records follow</Function>" ++ nl) ++ cstr "        <Value>" ++ value ++ cstr "</Value>" ++ nl ++
      match st with Some t => cstr "        <Timestamp>" ++ t ++ cstr "</Timestamp>" ++ nl | None => [] end ++ cstr "    </DataRecord>" ++ nl ++ nl)
      with ((head ++ cstr "        <Function>More records follow</Function>" ++ nl) ++ record_tail st value)
      by (unfold record_tail; rewrite <- !app_assoc; reflexivity).
    split; [exact T1|exact T2]. }
  call B2 (fun m S => function_gives m r S).
  pose proof (function_ctext r) as Cf.
  destruct (encode_at_ok _ loc _ _ Tx (proj1 Cf) ltac:(lia)) as (ef & loc2 & Eef & Cef & El & Ll & Ec). rewrite El. cbn [bind]. rewrite Ec. cbn [bind].
  rewrite Lloc in *. clear Tx El Ec. rewrite Eef. cbn [bind]. change (768 - 1)%nat with 767%nat in Cef.
  line B2 (ctext_line (cstr "        <Function>") 767 ef (cstr "</Function>" ++ nl) 18 ltac:(vm_compute; reflexivity) Cef ltac:(vm_compute; reflexivity)).
  destruct (mbus_data_record_storage_number r) as [sn|] eqn:Es; cbn [bind]; [|reflexivity].
  line B2 (ctext_line (cstr "        <StorageNumber>") 48 (fmt_d sn) (cstr "</StorageNumber>" ++ nl) 23 ltac:(vm_compute; reflexivity) (storage_num r sn Es) ltac:(vm_compute; reflexivity)).
  destruct (mbus_data_record_tariff r) as [tf|] eqn:Et; cbn [bind]; [|reflexivity].
  assert (REST : forall n m3 dev, building m record_arrays S_record n (((head ++ cstr "        <Function>" ++ ef ++ cstr "</Function>" ++ nl) ++
        cstr "        <StorageNumber>" ++ fmt_d sn ++ cstr "</StorageNumber>" ++ nl) ++ dev) m3 -> (n <= 1500)%nat ->
    match
      (let* info :=
         let* u := mbus_data_record_unit r in
         let* unit := encoded 768 u in
         Ok (cstr "        <Function>" ++ ef ++ cstr "</Function>" ++ nl ++
             cstr "        <StorageNumber>" ++ fmt_d sn ++ cstr "</StorageNumber>" ++ nl ++ dev ++ cstr "        <Unit>" ++ unit ++ cstr "</Unit>" ++ nl) in
       let* value := encoded 768 v in
       Ok (head ++ info ++ cstr "        <Value>" ++ value ++ cstr "</Value>" ++ nl ++
         match st with Some t => cstr "        <Timestamp>" ++ t ++ cstr "</Timestamp>" ++ nl | None => [] end ++ cstr "    </DataRecord>" ++ nl ++ nl))
    with
    | Ok t => ctext 4000 t /\ gives m record_arrays [S_record] t
        (let* (m, n, loc) :=
           let* (m, p) := s_unit m3 r in
           let* loc := encode_at m loc2 p in
           let* unit := c_str loc in
           let* (m, n) := add m S_record (List.length (((head ++ cstr "        <Function>" ++ ef ++ cstr "</Function>" ++ nl) ++
              cstr "        <StorageNumber>" ++ fmt_d sn ++ cstr "</StorageNumber>" ++ nl) ++ dev)) (cstr "        <Unit>" ++ unit ++ cstr "</Unit>" ++ nl) in
           Ok (m, n, loc) in
         let* (m, p) := s_value m r in
         let* loc := encode_at m loc p in
         let* value := c_str loc in
         let* (m, n) := add m S_record n (cstr "        <Value>" ++ value ++ cstr "</Value>" ++ nl) in
         let* (m, n) :=
           (match st with
            | Some t => add m S_record n (cstr "        <Timestamp>" ++ t ++ cstr "</Timestamp>" ++ nl)
            | None => Ok (m, n)
            end) in
         let* (m, _) := add m S_record n (cstr "    </DataRecord>" ++ nl ++ nl) in
         Ok (m, At S_record))
    | UB => False
    end).
  { intros n mx dev B3 Hn. destruct (unit_gives mx r (proj1 B3) P) as (u & Eu & Cu & G). rewrite Eu. cbn [bind].
    destruct (build_call _ _ _ _ _ _ _ _ _ _ B3 G ltac:(inlist) ltac:(outlist)) as (my & py & E4 & B4 & Tx). rewrite E4. cbn [bind].
    destruct (encode_at_ok _ loc2 _ _ Tx (proj1 Cu) ltac:(lia)) as (eu & loc3 & Eeu & Ceu & El & Ll3 & Ec). rewrite El. cbn [bind]. rewrite Ec. cbn [bind].
    rewrite Ll in *. rewrite Eeu. cbn [bind]. rewrite Ee. cbn [bind]. clear Tx El Ec B3 G E4. change (768 - 1)%nat with 767%nat in Ceu.
    line B4 (ctext_line (cstr "        <Unit>") 767 eu (cstr "</Unit>" ++ nl) 14 ltac:(vm_compute; reflexivity) Ceu ltac:(vm_compute; reflexivity)).
    destruct (tail_gives _ _ _ _ loc3 r st v value B4 ltac:(lia) Ll3 P Hst Ev Ee) as [T1 T2].
    match type of T1 with ctext _ ?a => match goal with |- ctext _ ?b /\ _ =>
      replace b with a by (unfold record_tail; rewrite <- !app_assoc; reflexivity) end end.
    split; [exact T1|exact T2]. }
  destruct (0 <=? tf).
  - line B2 (ctext_line (cstr "        <Tariff>") 48 (fmt_d tf) (cstr "</Tariff>" ++ nl) 16 ltac:(vm_compute; reflexivity) (tariff_num r tf Et) ltac:(vm_compute; reflexivity)).
    destruct (mbus_data_record_device r) as [dv|] eqn:Ed; cbn [bind]; [|reflexivity].
    line B2 (ctext_line (cstr "        <Device>") 48 (fmt_d dv) (cstr "</Device>" ++ nl) 16 ltac:(vm_compute; reflexivity) (device_num r dv Ed) ltac:(vm_compute; reflexivity)).
    rewrite <- (app_assoc _ (cstr "        <Tariff>" ++ _)) in B2. specialize (REST _ _ _ B2 ltac:(lia)).
    rewrite <- !app_assoc in REST. rewrite <- !app_assoc.
    match type of REST with match ?a with _ => _ end => match goal with |- match ?b with _ => _ end => change b with a; destruct a; [exact REST|destruct REST] end end.
  - cbn [bind]. specialize (REST _ _ [] ltac:(rewrite app_nil_r; exact B2) ltac:(lia)). rewrite app_nil_r in REST.
    match type of REST with match ?a with _ => _ end => match goal with |- match ?b with _ => _ end => change b with a; destruct a; [exact REST|destruct REST] end end.
Qed.
