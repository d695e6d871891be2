(** * Programs that read a settings file, assign options and write it *)
From Coq Require Import NArith ZArith List Bool String Lia.
From Coq Require Import ZifyBool ZifyNat ZifyN.
From Verif Require Import Base BaseFacts AnlzCodec Crc CrcFacts Setting SettingFacts SettingSpec Layout LayoutSetting Device DeviceFacts Show ShowFacts.
Import ListNotations.
Open Scope N_scope.

(** ** Model *)
(** Assigning a field of the data; the fields of options are public (src/setting.rs:262-508), as is [data] (src/setting.rs:67). *)
Fixpoint set_val (names : list string) (vs : list sval) (f v : string) : list sval :=
  match names, vs with
  | n :: names, x :: vs => if String.eqb n f then VOpt v :: vs else x :: set_val names vs f v
  | _, _ => vs
  end.
Definition assign (s : setting) (a : string * string) : setting :=
  let t := sd_type (st_data s) in
  mk_setting (st_brand s) (st_software s) (st_version s) (mk_sdata t (set_val (names_of t) (sd_vals (st_data s)) (fst a) (snd a))).
Definition tune (l : list (string * string)) (s : setting) : setting := fold_left assign l s.

(** ** Spec *)
(** Where the options are; the bytes are explained in [option_table]. *)
Local Open Scope string_scope.
Local Open Scope N_scope.
Definition field_table (t : stype) : list (string * N) :=
  match t with
  | TDev =>
    [("overview_waveform_type", 113); ("waveform_color", 114); ("key_display_format", 116); ("waveform_current_position", 117)]
  | TDjm =>
    [("channel_fader_curve", 116); ("crossfader_curve", 117); ("headphones_pre_eq", 118); ("headphones_mono_split", 119); ("beat_fx_quantize", 120);
     ("mic_low_cut", 121); ("talk_over_mode", 122); ("talk_over_level", 123); ("midi_channel", 124); ("midi_button_type", 125);
     ("display_brightness", 126); ("indicator_brightness", 127); ("channel_fader_curve_long_fader", 128)]
  | TMy =>
    [("on_air_display", 112); ("lcd_brightness", 113); ("quantize", 114); ("auto_cue_level", 115); ("language", 116); ("jog_ring_brightness", 118);
     ("jog_ring_indicator", 119); ("slip_flashing", 120); ("disc_slot_illumination", 124); ("eject_lock", 125); ("sync", 126); ("play_mode", 127);
     ("quantize_beat_value", 128); ("hotcue_autoload", 129); ("hotcue_color", 130); ("needle_lock", 133); ("time_mode", 136); ("jog_mode", 137);
     ("auto_cue", 138); ("master_tempo", 139); ("tempo_range", 140); ("phase_meter", 141)]
  | TMy2 =>
    [("vinyl_speed_adjust", 104); ("jog_display_mode", 105); ("pad_button_brightness", 106); ("jog_lcd_brightness", 107);
     ("waveform_divisions", 108); ("waveform", 114); ("beat_jump_beat_value", 116)]
  end.
Local Close Scope string_scope.
(** Byte [c] at [o] stands for [v], of the option [e]. *)
Definition meaning (t : stype) (o : N) (e : string) (c : N) (v : string) : Prop := exists ms, In (e, o, ms) (option_table t) /\ In (c, v) ms.
Definition legal (t : stype) (a : string * string) : Prop := exists o e c, In (fst a, o) (field_table t) /\ meaning t o e c (snd a).
(** The last value assigned to a field. *)
Fixpoint final (l : list (string * string)) (f : string) : option string :=
  match l with
  | [] => None
  | a :: rest => match final rest f with Some v => Some v | None => if String.eqb (fst a) f then Some (snd a) else None end
  end.

(** ** Proofs *)
Fixpoint named_table (o : N) (l : list item) (names : list string) : list (string * N) :=
  match l, names with
  | IOpt e :: l, n :: names => (n, o) :: named_table (o + 1) l names
  | IRaw _ d :: l, n :: names => named_table (o + len d) l names
  | _, _ => []
  end.
Lemma field_table_items t : field_table t = named_table 104 (items_of t) (names_of t).
Proof. destruct t; vm_compute; reflexivity. Qed.
Notation total l := (fold_right (fun i n => item_size i + n) 0 l).
Lemma named_split : forall l names o f q, In (f, q) (named_table o l names) ->
  exists l1 e l2 n1 n2, l = l1 ++ IOpt e :: l2 /\ names = n1 ++ f :: n2 /\ List.length l1 = List.length n1 /\ q = o + total l1.
Proof.
  induction l as [|i l IH]; intros names o f q H; [easy|]. destruct names as [|n names]; [now destruct i|]. destruct i as [e|r d]; cbn [named_table] in H.
  - destruct H as [[= <- <-]|H]; [exists [], e, l, [], names; cbn; repeat split; lia|]. apply IH in H as (l1 & e1 & l2 & n1 & n2 & -> & -> & HL & ->).
    exists (IOpt e :: l1), e1, l2, (n :: n1), n2. cbn [app List.length fold_right item_size]. repeat split; lia.
  - apply IH in H as (l1 & e1 & l2 & n1 & n2 & -> & -> & HL & ->). exists (IRaw r d :: l1), e1, l2, (n :: n1), n2. cbn [app List.length fold_right item_size]. repeat split; lia.
Qed.
Lemma item_split : forall l o e q ms, In (e, q, ms) (item_table o l) ->
  exists l1 e1 l2, l = l1 ++ IOpt e1 :: l2 /\ e = se_name e1 /\ ms = map (fun p => (snd p, fst p)) (se_vars e1) /\ q = o + total l1.
Proof.
  induction l as [|i l IH]; intros o e q ms H; [easy|]. destruct i as [x|r d]; cbn [item_table] in H.
  - destruct H as [[= <- <- <-]|H]; [exists [], x, l; cbn; repeat split; lia|]. apply IH in H as (l1 & e1 & l2 & -> & -> & -> & ->).
    exists (IOpt x :: l1), e1, l2. cbn [app fold_right item_size]. repeat split; lia.
  - apply IH in H as (l1 & e1 & l2 & -> & -> & -> & ->). exists (IRaw r d :: l1), e1, l2. cbn [app fold_right item_size]. repeat split; lia.
Qed.
Lemma split_unique : forall l1 e l2 l1' e' l2', l1 ++ IOpt e :: l2 = l1' ++ IOpt e' :: l2' -> total l1 = total l1' -> l1 = l1' /\ e = e' /\ l2 = l2'.
Proof.
  induction l1 as [|x l1 IH]; intros e l2 [|x' l1'] e' l2' H HT; cbn [app fold_right] in *.
  - now injection H as -> ->.
  - injection H as <- _. cbn [item_size] in HT. lia.
  - injection H as -> _. cbn [item_size] in HT. lia.
  - injection H as -> H. destruct (IH e l2 l1' e' l2' H ltac:(lia)) as (-> & -> & ->). easy.
Qed.
(** What a legal assignment is in the model. *)
Lemma legal_split t f o e c v : In (f, o) (field_table t) -> meaning t o e c v ->
  exists l1 x l2 n1 n2, items_of t = l1 ++ IOpt x :: l2 /\ names_of t = n1 ++ f :: n2 /\ List.length l1 = List.length n1 /\ o = 104 + total l1 /\
    e = se_name x /\ In (v, c) (se_vars x) /\ In (List.length l1, f, x) (options_of t).
Proof.
  intros HF (ms & HM & HV). rewrite field_table_items in HF. rewrite option_table_items in HM. apply named_split in HF as (l1 & x & l2 & n1 & n2 & H1 & H2 & H3 & H4).
  apply item_split in HM as (l1' & x' & l2' & H5 & -> & -> & H6). rewrite H1 in H5. apply split_unique in H5 as (<- & <- & <-); [|lia].
  exists l1, x, l2, n1, n2. split; [easy|]. split; [easy|]. split; [easy|]. split; [easy|]. split; [easy|]. split.
  - apply in_map_iff in HV as ([a b] & [= <- <-] & HV). exact HV.
  - unfold options_of. apply in_flat_map. exists (List.length l1, f, IOpt x). split; [|now left]. rewrite H1, H2, app_length. cbn [List.length].
    rewrite seq_app. cbn [seq Nat.add]. assert (forall (A B : Type) (a : list A) (b : list B) a' b', List.length a = List.length b -> combine (a ++ a') (b ++ b') = combine a b ++ combine a' b') as HC.
    { clear. intros A B. induction a as [|y a IH]; intros [|z b] a' b' H; try easy. cbn. now rewrite IH by now injection H. }
    rewrite HC by (rewrite seq_length; lia). cbn [combine]. rewrite HC by (rewrite combine_length, seq_length; lia). apply in_app_iff. right. now left.
Qed.
Lemma set_val_split : forall n1 v1 n2 f x v2 v, List.length n1 = List.length v1 -> ~ In f n1 -> set_val (n1 ++ f :: n2) (v1 ++ x :: v2) f v = v1 ++ VOpt v :: v2.
Proof.
  induction n1 as [|n n1 IH]; intros [|y v1] n2 f x v2 v HL HN; try easy; cbn [app set_val].
  - now rewrite String.eqb_refl.
  - cbn [In] in HN. destruct (String.eqb_spec n f) as [->|NE]; [exfalso; auto|]. rewrite IH; [easy|now injection HL|auto].
Qed.
Lemma fields_nodup t f o : In (f, o) (field_table t) -> forall n1 n2, names_of t = n1 ++ f :: n2 -> ~ In f n1.
Proof.
  intros HF n1 n2 HN HI. assert (forallb (fun q => Nat.eqb (count_occ string_dec (names_of t) (fst q)) 1) (field_table t) = true) as W by (destruct t; vm_compute; reflexivity).
  rewrite forallb_forall in W. specialize (W _ HF). cbn [fst] in W. rewrite HN, count_occ_app in W. cbn [count_occ] in W. destruct (string_dec f f); [|easy].
  apply (count_occ_In string_dec) in HI. apply Nat.eqb_eq in W. lia.
Qed.
Lemma offsets_nodup t f g o : In (f, o) (field_table t) -> In (g, o) (field_table t) -> f = g.
Proof.
  assert (forallb (fun q => forallb (fun r => implb (snd q =? snd r) (String.eqb (fst q) (fst r))) (field_table t)) (field_table t) = true) as W by (destruct t; vm_compute; reflexivity).
  intros HF HG. rewrite forallb_forall in W. specialize (W _ HF). rewrite forallb_forall in W. specialize (W _ HG). cbn [fst snd] in W. rewrite N.eqb_refl in W. now apply String.eqb_eq.
Qed.
Lemma Forall2_split {A B} (R : A -> B -> Prop) : forall l1 x l2 ys, Forall2 R (l1 ++ x :: l2) ys -> exists y1 y y2, ys = y1 ++ y :: y2 /\ Forall2 R l1 y1 /\ R x y /\ Forall2 R l2 y2.
Proof.
  intros l1 x l2 ys H. apply Forall2_app_inv_l in H as (y1 & r & H1 & H2 & ->). inversion H2 as [|? y ? y2 H3 H4]; subst. now exists y1, y, y2.
Qed.
Lemma F2_length {A B} (R : A -> B -> Prop) l l' : Forall2 R l l' -> List.length l = List.length l'.
Proof. induction 1; cbn; congruence. Qed.
(** One assignment changes one byte. *)
Lemma assign_byte s f v o e c d : setting_ok s -> In (f, o) (field_table (sd_type (st_data s))) -> meaning (sd_type (st_data s)) o e c v ->
  enc_items (items_of (sd_type (st_data s))) (sd_vals (st_data s)) = Ok d ->
  setting_ok (assign s (f, v)) /\ exists d', enc_items (items_of (sd_type (st_data s))) (sd_vals (st_data (assign s (f, v)))) = Ok d' /\
    getN d' (o - 104) = Some c /\ 104 <= o /\ forall j, 104 + j <> o -> getN d' j = getN d j.
Proof.
  intros (L1 & L2 & L3 & D) HF HM HE. set (t := sd_type (st_data s)) in *. destruct (legal_split t f o e c v HF HM) as (l1 & x & l2 & n1 & n2 & EI & EN & EL & EO & _ & HV & _).
  pose proof (layouts_wf t) as W. rewrite EI, forallb_app in W. apply andb_true_iff in W as [W1 W2]. cbn [forallb] in W2. apply andb_true_iff in W2 as [WX W2]. cbn [item_wfb] in WX.
  unfold sdata_ok in D. fold t in D. rewrite EI in D. apply Forall2_split in D as (y1 & y & y2 & EV & D1 & DX & D2).
  assert (List.length n1 = List.length y1) as LY by (rewrite <- EL; exact (F2_length _ _ _ D1)).
  assert (sd_vals (st_data (assign s (f, v))) = y1 ++ VOpt v :: y2) as EA.
  { unfold assign. cbn [st_data sd_vals fst snd]. fold t. rewrite EN, EV. apply set_val_split; [easy|]. now apply (fields_nodup t f o HF n1 n2). }
  split.
  - unfold setting_ok, assign. cbn [st_brand st_software st_version]. split; [easy|]. split; [easy|]. split; [easy|]. unfold sdata_ok. cbn [st_data sd_type]. fold t.
    change (sd_vals (mk_sdata t (set_val (names_of t) (sd_vals (st_data s)) (fst (f, v)) (snd (f, v))))) with (sd_vals (st_data (assign s (f, v)))). rewrite EA, EI.
    apply Forall2_app; [easy|]. constructor; [|easy]. cbn [item_ok]. now apply (in_map fst) in HV.
  - destruct (enc_items_ok l1 y1 W1 D1) as (d1 & E1 & LD1 & _). destruct (enc_items_ok l2 y2 W2 D2) as (d2 & E2 & _ & _).
    destruct (enc_item_ok (IOpt x) y WX DX) as (dx & EX & LDX & _). cbn [item_size] in LDX.
    rewrite EI, EV, enc_items_app, E1 in HE by exact (F2_length _ _ _ D1). cbn [res_bind enc_items] in HE. rewrite EX in HE. cbn [res_bind] in HE. rewrite E2 in HE. cbn [res_bind] in HE. apply Ok_eq in HE as <-.
    exists (d1 ++ c :: d2). split; [|split; [|split]].
    + rewrite EI, EA, enc_items_app, E1 by exact (F2_length _ _ _ D1). cbn [res_bind enc_items enc_item]. rewrite (in_se_code x v c WX HV). cbn [res_bind]. now rewrite E2.
    + rewrite getN_app. replace (o - 104 <? len d1) with false by lia. replace (o - 104 - len d1) with 0 by lia. reflexivity.
    + lia.
    + intros j Hj. rewrite !getN_app. destruct (j <? len d1) eqn:J; [easy|]. replace (j - len d1 <? len dx) with false by lia.
      change (c :: d2) with ([c] ++ d2). rewrite getN_app. change (len [c]) with 1. replace (j - len d1 <? 1) with false by lia. now rewrite LDX.
Qed.
Lemma assign_same s a : sd_type (st_data (assign s a)) = sd_type (st_data s) /\ st_brand (assign s a) = st_brand s /\ st_software (assign s a) = st_software s /\ st_version (assign s a) = st_version s.
Proof. easy. Qed.
Lemma tune_same : forall l s, sd_type (st_data (tune l s)) = sd_type (st_data s) /\ st_brand (tune l s) = st_brand s /\ st_software (tune l s) = st_software s /\ st_version (tune l s) = st_version s.
Proof. induction l as [|a l IH]; intro s; [easy|]. change (tune (a :: l) s) with (tune l (assign s a)). destruct (IH (assign s a)) as (H1 & H2 & H3 & H4). rewrite H1, H2, H3, H4. easy. Qed.
Lemma final_snoc l a f : final (l ++ [a]) f = if String.eqb (fst a) f then Some (snd a) else final l f.
Proof. induction l as [|x l IH]; cbn [app final]; [now destruct (String.eqb (fst a) f)|]. rewrite IH. now destruct (String.eqb (fst a) f). Qed.
Lemma tune_bytes : forall l s d, setting_ok s -> Forall (legal (sd_type (st_data s))) l -> enc_items (items_of (sd_type (st_data s))) (sd_vals (st_data s)) = Ok d ->
  setting_ok (tune l s) /\ exists d', enc_items (items_of (sd_type (st_data s))) (sd_vals (st_data (tune l s))) = Ok d' /\
    forall j, (exists f v e c, In (f, 104 + j) (field_table (sd_type (st_data s))) /\ final l f = Some v /\ meaning (sd_type (st_data s)) (104 + j) e c v /\ getN d' j = Some c) \/
      ((forall f, In (f, 104 + j) (field_table (sd_type (st_data s))) -> final l f = None) /\ getN d' j = getN d j).
Proof.
  induction l as [|a l IH] using rev_ind; intros s d HO HL HE.
  { split; [easy|]. exists d. split; [easy|]. intro j. right. split; [intros; reflexivity|easy]. }
  apply Forall_app in HL as [HL HA]. inversion HA as [|? ? (o & e & c & HF & HM) _]; subst. destruct (IH s d HO HL HE) as (HO1 & d1 & E1 & B1). unfold tune in *. rewrite fold_left_app. cbn [fold_left].
  set (s1 := fold_left assign l s) in *. destruct (tune_same l s) as (T1 & _). unfold tune in T1. fold s1 in T1. destruct a as [f v]. cbn [fst snd] in *.
  rewrite <- T1 in HF, HM, E1 |- *. destruct (assign_byte s1 f v o e c d1 HO1 HF HM E1) as (HO2 & d2 & E2 & B2 & B3 & B4). split; [exact HO2|]. exists d2. split; [exact E2|]. intro j.
  destruct (N.eq_dec (104 + j) o) as [EJ|NJ].
  - left. exists f, v, e, c. rewrite EJ, final_snoc. cbn [fst snd]. rewrite String.eqb_refl. replace j with (o - 104) by lia. easy.
  - rewrite B4 by easy. destruct (B1 j) as [(g & w & e' & c' & G1 & G2 & G3 & G4)|[G1 G2]].
    + left. exists g, w, e', c'. rewrite T1, final_snoc. cbn [fst snd]. split; [easy|]. split; [|easy]. destruct (String.eqb_spec f g) as [->|]; [|easy]. exfalso.
      assert (104 + j = o) as X; [|lia]. rewrite T1 in HF. clear - G1 HF. set (t := sd_type (st_data s)) in *.
      assert (forallb (fun q => forallb (fun r => implb (String.eqb (fst q) (fst r)) (snd q =? snd r)) (field_table t)) (field_table t) = true) as W by (destruct t; vm_compute; reflexivity).
      rewrite forallb_forall in W. specialize (W _ G1). rewrite forallb_forall in W. specialize (W _ HF). cbn [fst snd] in W. rewrite String.eqb_refl in W. cbn [implb] in W. lia.
    + right. split; [|easy]. intros g HG. rewrite final_snoc. cbn [fst snd]. rewrite T1 in HG. destruct (String.eqb_spec f g) as [->|]; [|now apply G1]. exfalso. rewrite T1 in HF.
      assert (104 + j = o) as X; [|lia]. clear - HG HF. set (t := sd_type (st_data s)) in *.
      assert (forallb (fun q => forallb (fun r => implb (String.eqb (fst q) (fst r)) (snd q =? snd r)) (field_table t)) (field_table t) = true) as W by (destruct t; vm_compute; reflexivity).
      rewrite forallb_forall in W. specialize (W _ HG). rewrite forallb_forall in W. specialize (W _ HF). cbn [fst snd] in W. rewrite String.eqb_refl in W. cbn [implb] in W. lia.
Qed.

(** ** Files *)
Lemma tune_file t buf s p l : bytes_ok buf -> rd_setting t buf 0 = Ok (s, p) -> Forall (legal t) l ->
  exists bs, enc_setting (tune l s) = Ok bs /\ len bs = p /\ bytes_ok bs /\ rd_setting t bs 0 = Ok (tune l s, p) /\
    forall j, j < p -> (in_padding s j /\ getN bs j = Some 0) \/ (104 + size_of t <= j /\ j < 106 + size_of t) \/
      (exists f v e c, In (f, j) (field_table t) /\ final l f = Some v /\ meaning t j e c v /\ getN bs j = Some c) \/
      ((forall f, In (f, j) (field_table t) -> final l f = None) /\ getN bs j = getN buf j).
Proof.
  intros HB HR HL. destruct (setting_rw t buf s p HB HR) as (EP & _ & ET & HO & HNZ & HSB & b0 & E0 & L0 & B0).
  destruct (enc_front_ok s HO) as (d & HD & LD & _ & F0). rewrite <- ET in HL. destruct (tune_bytes l s d HO HL HD) as (HO1 & d1 & HD1 & B1). destruct (tune_same l s) as (T1 & T2 & T3 & T4).
  destruct (enc_setting_front (tune l s) HO1) as (f1 & F1 & W1). destruct (enc_setting_front s HO) as (f0 & F0' & W0).
  assert (data_size t = size_of t) as ES by now destruct t. pose proof (len_front _ _ HO1 F1) as LF1. pose proof (len_front _ _ HO F0') as LF0. rewrite T1, ET in LF1. rewrite ET in LF0.
  set (bs := f1 ++ le_enc 2 (crc16 (covered (sd_type (st_data (tune l s))) f1)) ++ le_enc 2 0) in *. exists bs.
  assert (len bs = p) as LB by (unfold bs; rewrite !len_app, !len_le_enc, LF1; lia). split; [exact W1|]. split; [exact LB|]. split.
  { unfold bs. apply Forall_app. split; [|apply Forall_app; split; apply le_enc_ok]. apply (front_bytes_ok (tune l s)); [easy| |easy]. unfold strings_bytes. now rewrite T2, T3, T4. }
  split.
  { rewrite <- ET, <- T1. rewrite (setting_wr (tune l s) bs 0 bs HO1 W1); [|exists [], []; now rewrite app_nil_r]. rewrite (proj2 (cut_strings_id (tune l s))); [now rewrite LB|]. unfold strings_nz. now rewrite T2, T3, T4. }
  intros j Hj. rewrite E0 in W0. apply Ok_eq in W0. assert ((104 + size_of t <= j /\ j < 106 + size_of t) \/ ~ (104 + size_of t <= j /\ j < 106 + size_of t)) as [HC|HC] by lia; [right; now left|]. destruct (B0 j Hj) as [HP|[HC'|HG]]; [left; split; [easy|]|exfalso; lia|right; right].
  { unfold bs. rewrite getN_app, LF1. assert (j < 100) as J by (unfold in_padding in HP; destruct HO as (? & ? & ? & _); lia). replace (j <? 104 + data_size t) with true by lia. rewrite (front_bytes (tune l s) f1 d1 j HO1 F1) by now rewrite T1.
    unfold front_byte. rewrite T2, T3, T4. unfold in_padding in HP. destruct HO as (O1 & O2 & O3 & _). destruct (j <? 4) eqn:J4; [lia|]. destruct (j <? 36) eqn:J36; [replace (j - 4 <=? len (st_brand s)) with false by lia; easy|].
    destruct (j <? 68) eqn:J68; [replace (j - 36 <=? len (st_software s)) with false by lia; easy|]. destruct (j <? 100) eqn:J100; [replace (j - 68 <=? len (st_version s)) with false by lia; easy|lia]. }
  rewrite W0 in HG. rewrite getN_app, LF0 in HG. unfold bs. rewrite getN_app, LF1. destruct (j <? 104 + data_size t) eqn:J.
  - rewrite (front_bytes _ _ d j HO F0' HD) in HG. rewrite (front_bytes (tune l s) f1 d1 j HO1 F1) by now rewrite T1. unfold front_byte in *. rewrite T1, T2, T3, T4 in *.
    destruct (j <? 104) eqn:J1.
    + right. split; [|repeat match goal with |- context [if ?c then _ else _] => destruct c end; exact HG].
      intros f Hf. exfalso. assert (forallb (fun q => 104 <=? snd q) (field_table t) = true) as W by (destruct t; vm_compute; reflexivity). rewrite forallb_forall in W. specialize (W _ Hf). cbn [snd] in W. lia.
    + replace (j <? 4) with false in * by lia. replace (j <? 36) with false in * by lia. replace (j <? 68) with false in * by lia. replace (j <? 100) with false in * by lia.
      rewrite <- HG, <- ET. specialize (B1 (j - 104)). replace (104 + (j - 104)) with j in B1 by lia. exact B1.
  - right. rewrite getN_app, len_le_enc in *. destruct (j - (104 + data_size t) <? N.of_nat 2) eqn:J2.
    + exfalso. lia.
    + split; [|exact HG]. intros f Hf. exfalso. assert (forallb (fun q => snd q <? 104 + data_size t) (field_table t) = true) as W by (destruct t; vm_compute; reflexivity). rewrite forallb_forall in W. specialize (W _ Hf). cbn [snd] in W. lia.
Qed.

(** ** The listing *)
Lemma tune_value t f o : In (f, o) (field_table t) -> forall l s, setting_ok s -> sd_type (st_data s) = t -> Forall (legal t) l ->
  field_val (names_of t) (sd_vals (st_data (tune l s))) f = match final l f with Some v => Some v | None => field_val (names_of t) (sd_vals (st_data s)) f end.
Proof.
  assert (forall names vs g v, List.length names = List.length vs -> In g names -> field_val names (set_val names vs g v) f = if String.eqb g f then Some v else field_val names vs f) as K.
  { induction names as [|n names IH]; intros vs g v HL HI; [easy|]. destruct vs as [|x vs]; [easy|]. cbn [set_val field_val]. destruct (String.eqb_spec n g) as [->|NE]; cbn [field_val].
    - now destruct (String.eqb g f).
    - destruct (String.eqb_spec n f) as [->|NF]; [destruct (String.eqb_spec g f) as [->|]; easy|]. apply IH; [now injection HL|]. now destruct HI. }
  intros HF. induction l as [|a l IH] using rev_ind; intros s HO ET HL; [easy|]. apply Forall_app in HL as [HL HA]. inversion HA as [|? ? (o' & e & c & HF' & HM) _]; subst.
  specialize (IH s HO eq_refl HL). destruct (tune_same l s) as (T1 & _). destruct (enc_front_ok s HO) as (d & HD & _). destruct (tune_bytes l s d HO HL HD) as ((_ & _ & _ & HO1) & _).
  unfold tune in *. rewrite fold_left_app, final_snoc. cbn [fold_left]. set (s1 := fold_left assign l s) in *. unfold assign. cbn [st_data sd_vals]. rewrite T1. rewrite K.
  - destruct (String.eqb (fst a) f); [easy|exact IH].
  - unfold sdata_ok in HO1. rewrite T1 in HO1. rewrite <- (F2_length _ _ _ HO1). now destruct (sd_type (st_data s)).
  - destruct (legal_split _ _ _ _ _ _ HF' HM) as (l1 & x & l2 & n1 & n2 & _ & -> & _). apply in_app_iff. right. now left.
Qed.
Lemma final_in l f v : final l f = Some v -> In (f, v) l.
Proof. induction l as [|a l IH]; [easy|]. cbn [final]. destruct (final l f) as [w|]; [intros [= ->]; right; now apply IH|]. destruct (String.eqb_spec (fst a) f) as [<-|]; [|easy]. intros [= <-]. left. now destruct a. Qed.
Lemma options_field t i f e : In (i, f, e) (options_of t) -> exists o, In (f, o) (field_table t).
Proof.
  intro H. assert (forallb (fun q : nat * string * senum => existsb (fun r => String.eqb (fst r) (snd (fst q))) (field_table t)) (options_of t) = true) as W by (destruct t; vm_compute; reflexivity).
  rewrite forallb_forall in W. specialize (W _ H). cbn [fst snd] in W. apply existsb_exists in W as ([g o] & H1 & H2). cbn [fst] in H2. apply String.eqb_eq in H2 as ->. now exists o.
Qed.
Lemma tune_listing w t fs fs' buf bs s p l text : bytes_ok buf -> fs (setting_file t) = FsBytes buf -> rd_setting t buf 0 = Ok (s, p) -> Forall (legal t) l ->
  enc_setting (tune l s) = Ok bs -> fs' (setting_file t) = FsBytes bs -> (forall t', t' <> t -> fs' (setting_file t') = fs (setting_file t')) -> list_settings w fs = Ok text ->
  exists text', list_settings w fs' = Ok text' /\ Forall2 (fun x y => line_name y = line_name x /\
    match final l (line_name x) with Some v => exists o e c, In (line_name x, o) (field_table t) /\ meaning t o e c v /\ show_option w e v = Some (line_value y) | None => y = x end) (lines_of text) (lines_of text').
Proof.
  intros HB HF HR HL HE HF' HO HT. destruct (load_settings_at fs) as (st & LS & AS). destruct (load_settings_at fs') as (st' & LS' & AS').
  unfold list_settings in *. rewrite LS in HT. apply Ok_eq in HT as <-. rewrite LS'. eexists. split; [reflexivity|].
  pose proof (load_sensible _ _ LS) as SS. pose proof (load_sensible _ _ LS') as SS'. rewrite !lines_of_show by easy.
  destruct (tune_file t buf s p l HB HR HL) as (bs' & E' & _ & _ & R' & _). rewrite HE in E'. apply Ok_eq in E' as <-. destruct (setting_rw t buf s p HB HR) as (_ & _ & ET & SO & _).
  assert (file_data fs t = Some (sd_vals (st_data s))) as D1 by (unfold file_data; now rewrite HF, HR). assert (file_data fs' t = Some (sd_vals (st_data (tune l s)))) as D2 by (unfold file_data; now rewrite HF', R').
  assert (forall f, In f settings_fields -> st' f = match final l f with Some v => Some v | None => st f end) as KEY.
  { intros f Hf. apply settings_fields_ok in Hf as (t' & [[i f'] e] & HI & EF). cbn [fst snd] in EF. subst f'. specialize (AS t' _ HI). specialize (AS' t' _ HI). cbn [fst snd] in AS, AS'.
    assert (t' = t \/ t' <> t) as [->|NT] by (destruct t, t'; (now left) || (now right)).
    - rewrite D1 in AS. rewrite D2 in AS'. pose proof (option_value t (i, f, e) (sd_vals (st_data s)) HI) as V1. pose proof (option_value t (i, f, e) (sd_vals (st_data (tune l s))) HI) as V2. cbn [fst snd] in V1, V2.
      rewrite AS, AS', <- V1, <- V2. destruct (options_field t i f e HI) as [o Ho]. now apply (tune_value t f o Ho).
    - assert (file_data fs' t' = file_data fs t') as D by (unfold file_data; now rewrite HO). rewrite D in AS'. rewrite AS', <- AS. destruct (final l f) as [v|] eqn:E; [|easy]. exfalso.
      apply final_in in E. rewrite Forall_forall in HL. destruct (HL _ E) as (o & x & c & H1 & H2). cbn [fst snd] in H1, H2. destruct (legal_split t f o x c v H1 H2) as (l1 & x' & _ & _ & _ & _ & _ & _ & _ & _ & _ & HI2).
      pose proof (owner_option t (List.length l1, f, x') t' HI2) as O1. pose proof (owner_option t' (i, f, e) t' HI) as O2. cbn [fst snd] in O1, O2. rewrite O1 in O2. rewrite stype_eqb_refl in O2.
      destruct t, t'; easy. }
  assert (forall q, In q display_lines -> In q display_lines) as HQ by easy. revert HQ. generalize display_lines at 1 3 4. intros q HQ. induction q as [|x q IH]; [constructor|]. cbn [map]. constructor; [|apply IH; intros y Hy; apply HQ; now right].
  assert (In x display_lines) as HX by (apply HQ; now left). rewrite !line_name_show, line_value_show by easy. split; [easy|].
  assert (In (snd x) settings_fields) as HI by (apply (proj1 (lines_fields (snd x))); now apply in_map). specialize (KEY _ HI). unfold show_line. destruct (final l (snd x)) as [v|] eqn:E.
  - rewrite KEY. apply final_in in E. rewrite Forall_forall in HL. destruct (HL _ E) as (o & e & c & H1 & H2). cbn [fst snd] in H1, H2. exists o, e, c. split; [easy|]. split; [easy|].
    destruct (legal_split t (snd x) o e c v H1 H2) as (l1 & x' & _ & _ & _ & _ & _ & _ & _ & -> & HV & HI2). destruct (table_ok w _ _ _ _ HI2) as [HT HVal]. specialize (HVal v c HV). unfold value_ok in HVal.
    unfold format_option. rewrite HT. now destruct (show_option w (se_name x') v).
  - now rewrite KEY.
Qed.
