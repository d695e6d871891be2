(** * What the listing of settings should look like, and facts for C72 *)
From Coq Require Import NArith Arith List Bool String Ascii Lia.
From Verif Require Import Base BaseFacts Setting Device DeviceFacts Show.
Import ListNotations.
Local Open Scope string_scope.

(** ** Spec *)
(** The lines of a text: what is in front of, between and behind its line feeds. *)
Fixpoint lines_of (s : string) : list string :=
  match s with
  | "" => [""]
  | String c s => if Ascii.eqb c "010" then "" :: lines_of s else match lines_of s with l :: ls => String c l :: ls | [] => [] end
  end.
(** ASCII letters in lower case *)
Definition lower (c : ascii) : ascii := if (65 <=? N_of_ascii c)%N && (N_of_ascii c <=? 90)%N then ascii_of_N (N_of_ascii c + 32) else c.
Fixpoint smap (f : ascii -> ascii) (s : string) : string := match s with "" => "" | String c s => String (f c) (smap f s) end.
(** The name of the setting on a line: what is in front of the first colon, in lower case, with underscores for spaces. *)
Fixpoint before_colon (s : string) : string :=
  match s with "" => "" | String c s => if Ascii.eqb c ":" then "" else String c (before_colon s) end.
Definition line_name (l : string) : string := smap (fun c => if Ascii.eqb c " " then "_"%char else lower c) (before_colon l).
(** Its value: all behind column 32. *)
Fixpoint skip (n : nat) (s : string) : string := match n, s with O, _ => s | S n, String _ s => skip n s | S _, "" => "" end.
Definition line_value (l : string) : string := skip 32 l.

(** What the documentation says options are named in the preferences of Rekordbox ("Named ... in the Rekordbox preferences"),
    src/setting.rs:513-1363 *)
Definition documented_names : list (string * list (string * string)) :=
  [("PlayMode", [("Continue", "CONTINUE / ON"); ("Single", "SINGLE / OFF")]);
   ("EjectLock", [("Unlock", "UNLOCK"); ("Lock", "LOCK")]);
   ("NeedleLock", [("Unlock", "UNLOCK"); ("Lock", "LOCK")]);
   ("QuantizeBeatValue", [("EighthBeat", "1/8 Beat"); ("QuarterBeat", "1/4 Beat"); ("HalfBeat", "1/2 Beat"); ("FullBeat", "1 Beat")]);
   ("HotCueAutoLoad", [("Off", "OFF"); ("RekordboxSetting", "rekordbox SETTING"); ("On", "On")]);
   ("HotCueColor", [("Off", "OFF"); ("On", "On")]);
   ("AutoCueLevel", [("Minus78dB", "-78dB"); ("Minus72dB", "-72dB"); ("Minus66dB", "-66dB"); ("Minus60dB", "-60dB"); ("Minus54dB", "-54dB"); ("Minus48dB", "-48dB"); ("Minus42dB", "-42dB"); ("Minus36dB", "-36dB"); ("Memory", "MEMORY")]);
   ("TimeMode", [("Elapsed", "Elapsed"); ("Remain", "REMAIN")]);
   ("AutoCue", [("Off", "OFF"); ("On", "ON")]);
   ("JogMode", [("Vinyl", "VINYL"); ("CDJ", "CDJ")]);
   ("TempoRange", [("SixPercent", "±6"); ("TenPercent", "±10"); ("SixteenPercent", "±16"); ("Wide", "WIDE")]);
   ("MasterTempo", [("Off", "OFF"); ("On", "ON")]);
   ("Quantize", [("Off", "OFF"); ("On", "ON")]);
   ("Sync", [("Off", "OFF"); ("On", "ON")]);
   ("PhaseMeter", [("Type1", "TYPE 1"); ("Type2", "TYPE 2")]);
   ("Waveform", [("Waveform", "WAVEFORM"); ("PhaseMeter", "PHASE METER")]);
   ("WaveformDivisions", [("TimeScale", "TIME SCALE"); ("Phrase", "PHRASE")]);
   ("VinylSpeedAdjust", [("TouchRelease", "TOUCH & RELEASE"); ("Touch", "TOUCH"); ("Release", "RELEASE")]);
   ("BeatJumpBeatValue", [("HalfBeat", "1/2 BEAT"); ("OneBeat", "1 BEAT"); ("TwoBeat", "2 BEAT"); ("FourBeat", "4 BEAT"); ("EightBeat", "8 BEAT"); ("SixteenBeat", "16 BEAT"); ("ThirtytwoBeat", "32 BEAT"); ("SixtyfourBeat", "64 BEAT")]);
   ("Language", [("English", "English"); ("French", "Français"); ("German", "Deutsch"); ("Italian", "Italiano"); ("Dutch", "Nederlands"); ("Spanish", "Español"); ("Russian", "Русский"); ("Korean", "한국어"); ("ChineseSimplified", "简体中文"); ("ChineseTraditional", "繁體中文"); ("Japanese", "日本語"); ("Portuguese", "Português"); ("Swedish", "Svenska"); ("Czech", "Čeština"); ("Hungarian", "Magyar"); ("Danish", "Dansk"); ("Greek", "Ελληνικά"); ("Turkish", "Türkçe")]);
   ("LCDBrightness", [("One", "1"); ("Two", "2"); ("Three", "3"); ("Four", "4"); ("Five", "5")]);
   ("JogLCDBrightness", [("One", "1"); ("Two", "2"); ("Three", "3"); ("Four", "4"); ("Five", "5")]);
   ("JogDisplayMode", [("Auto", "AUTO"); ("Info", "INFO"); ("Simple", "SIMPLE"); ("Artwork", "ARTWORK")]);
   ("SlipFlashing", [("Off", "OFF"); ("On", "ON")]);
   ("OnAirDisplay", [("Off", "OFF"); ("On", "ON")]);
   ("JogRingBrightness", [("Off", "OFF"); ("Dark", "1 (Dark)"); ("Bright", "2 (Bright)")]);
   ("JogRingIndicator", [("Off", "OFF"); ("On", "ON")]);
   ("DiscSlotIllumination", [("Off", "OFF"); ("Dark", "1 (Dark)"); ("Bright", "2 (Bright)")]);
   ("PadButtonBrightness", [("One", "1"); ("Two", "2"); ("Three", "3"); ("Four", "4")]);
   ("HeadphonesPreEQ", [("PostEQ", "POST EQ"); ("PreEQ", "PRE EQ")]);
   ("HeadphonesMonoSplit", [("MonoSplit", "MONO SPLIT"); ("Stereo", "STEREO")]);
   ("BeatFXQuantize", [("Off", "OFF"); ("On", "ON")]);
   ("MicLowCut", [("Off", "OFF"); ("On", "ON(for MC)")]);
   ("TalkOverMode", [("Advanced", "ADVANCED"); ("Normal", "NORMAL")]);
   ("TalkOverLevel", [("Minus24dB", "-24dB"); ("Minus18dB", "-18dB"); ("Minus12dB", "-12dB"); ("Minus6dB", "-6dB")]);
   ("MidiChannel", [("One", "1"); ("Two", "2"); ("Three", "3"); ("Four", "4"); ("Five", "5"); ("Six", "6"); ("Seven", "7"); ("Eight", "8"); ("Nine", "9"); ("Ten", "10"); ("Eleven", "11"); ("Twelve", "12"); ("Thirteen", "13"); ("Fourteen", "14"); ("Fifteen", "15"); ("Sixteen", "16")]);
   ("MidiButtonType", [("Toggle", "TOGGLE"); ("Trigger", "TRIGGER")]);
   ("MixerDisplayBrightness", [("White", "WHITE"); ("One", "1"); ("Two", "2"); ("Three", "3"); ("Four", "4"); ("Five", "5")]);
   ("MixerIndicatorBrightness", [("One", "1"); ("Two", "2"); ("Three", "3")]);
   ("WaveformColor", [("Blue", "BLUE"); ("Rgb", "RGB"); ("TriBand", "3Band")]);
   ("WaveformCurrentPosition", [("Left", "LEFT"); ("Center", "CENTER")]);
   ("OverviewWaveformType", [("HalfWaveform", "Half Waveform"); ("FullWaveform", "Full Waveform")]);
   ("KeyDisplayFormat", [("Classic", "Classic"); ("Alphanumeric", "Alphanumeric")])].

(** ** Facts *)
Fixpoint no_lf (s : string) : bool := match s with "" => true | String c s => negb (Ascii.eqb c "010") && no_lf s end.
Lemma no_lf_app a b : no_lf (a ++ b) = no_lf a && no_lf b.
Proof. induction a as [|c a IH]; [easy|]. cbn. now rewrite IH, andb_assoc. Qed.
Lemma lines_of_plain l : no_lf l = true -> lines_of l = [l].
Proof. induction l as [|c l IH]; [easy|]. cbn. intro H. apply andb_true_iff in H as [H1 H2]. apply negb_true_iff in H1. now rewrite H1, IH. Qed.
Lemma lines_of_app l r : no_lf l = true -> lines_of (l ++ LF ++ r) = l :: lines_of r.
Proof. induction l as [|c l IH]; [easy|]. cbn [no_lf]. intro H. apply andb_true_iff in H as [H1 H2]. apply negb_true_iff in H1. cbn [append lines_of]. now rewrite H1, IH. Qed.
Lemma lines_of_join ls : ls <> [] -> Forall (fun l => no_lf l = true) ls -> lines_of (join_lines ls) = ls.
Proof.
  induction ls as [|l ls IH]; [easy|]. intros _ H. inversion H as [|? ? H1 H2]; subst. destruct ls as [|l2 ls]; [now apply lines_of_plain|].
  change (join_lines (l :: l2 :: ls)) with (l ++ LF ++ join_lines (l2 :: ls)). rewrite lines_of_app by easy. f_equal. now apply IH.
Qed.
Lemma skip_app a b : forall n, String.length a = n -> skip n (a ++ b) = b.
Proof. induction a as [|c a IH]; intros [|n] H; cbn in *; try easy; try discriminate. apply IH. congruence. Qed.
Lemma before_colon_app a b : before_colon a <> a -> before_colon (a ++ b) = before_colon a.
Proof.
  induction a as [|c a IH]; cbn; [easy|]. destruct (Ascii.eqb_spec c ":") as [E|E]; [easy|]. intro H. f_equal. apply IH. congruence.
Qed.

(** *** Tables, by computation *)
Definition nodup_str (l : list string) : bool := (fix go l := match l with [] => true | x :: r => negb (existsb (String.eqb x) r) && go r end) l.
Lemma nodup_str_ok l : nodup_str l = true -> NoDup l.
Proof.
  induction l as [|x r IH]; [constructor|]. cbn. intro H. apply andb_true_iff in H as [H1 H2]. constructor; [|now apply IH].
  intro I. apply negb_true_iff in H1. assert (existsb (String.eqb x) r = true) as X; [|congruence]. apply existsb_exists. exists x. split; [easy|]. apply String.eqb_refl.
Qed.
Definition value_ok (w : pick) (e : senum) (v : string) : bool :=
  match show_option w (se_name e) v with
  | Some t => no_lf t && negb (String.eqb t "<missing>") &&
              forallb (fun p => match show_option w (se_name e) (fst p) with Some t' => implb (String.eqb t t') (String.eqb v (fst p)) | None => false end) (se_vars e)
  | None => false
  end.
Lemma tables_ok w : forallb (fun t => forallb (fun p : nat * string * senum =>
    match assoc (snd (fst p)) field_types with Some n => String.eqb n (se_name (snd p)) | None => false end &&
    forallb (fun q => value_ok w (snd p) (fst q)) (se_vars (snd p))) (options_of t)) all_types = true.
Proof. destruct w; vm_compute; reflexivity. Qed.
Lemma table_ok w t i name e : In (i, name, e) (options_of t) ->
  assoc name field_types = Some (se_name e) /\ forall v c, In (v, c) (se_vars e) -> value_ok w e v = true.
Proof.
  intro H. pose proof (tables_ok w) as W. rewrite forallb_forall in W. specialize (W t (in_all_types t)). rewrite forallb_forall in W.
  specialize (W _ H). cbn [fst snd] in W. apply andb_true_iff in W as [W1 W2]. split.
  - destruct (assoc name field_types); [|easy]. apply String.eqb_eq in W1. congruence.
  - intros v c I. rewrite forallb_forall in W2. now apply (W2 (v, c)).
Qed.
Lemma labels_ok : forallb (fun l => Nat.eqb (String.length (fst l)) 32 && no_lf (fst l) && negb (String.eqb (before_colon (fst l)) (fst l)) &&
    String.eqb (line_name (fst l)) (snd l)) display_lines && nodup_str (map snd display_lines) &&
    forallb (fun f => existsb (String.eqb f) (map snd display_lines)) settings_fields && forallb (fun f => existsb (String.eqb f) settings_fields) (map snd display_lines) = true.
Proof. vm_compute. reflexivity. Qed.
Lemma label_ok l : In l display_lines -> String.length (fst l) = 32%nat /\ no_lf (fst l) = true /\ before_colon (fst l) <> fst l /\ line_name (fst l) = snd l.
Proof.
  pose proof labels_ok as W. apply andb_true_iff in W as [W _]. apply andb_true_iff in W as [W _]. apply andb_true_iff in W as [W _].
  rewrite forallb_forall in W. intro I. specialize (W l I).
  apply andb_true_iff in W as [W W4]. apply andb_true_iff in W as [W W3]. apply andb_true_iff in W as [W1 W2]. apply Nat.eqb_eq in W1. repeat split; try easy.
  - intro E. rewrite E, String.eqb_refl in W3. easy.
  - now apply String.eqb_eq.
Qed.
Lemma lines_nodup : NoDup (map snd display_lines).
Proof. pose proof labels_ok as W. apply andb_true_iff in W as [W _]. apply andb_true_iff in W as [W _]. apply andb_true_iff in W as [_ W]. now apply nodup_str_ok. Qed.
Lemma lines_fields f : In f (map snd display_lines) <-> In f settings_fields.
Proof.
  pose proof labels_ok as W. apply andb_true_iff in W as [W W2]. apply andb_true_iff in W as [_ W1]. rewrite forallb_forall in W1, W2.
  split; intro I; [specialize (W2 f I); apply existsb_exists in W2 as (g & G & E)|specialize (W1 f I); apply existsb_exists in W1 as (g & G & E)];
    now apply String.eqb_eq in E as ->.
Qed.

(** *** Lines *)
Lemma line_name_show w s l : In l display_lines -> line_name (show_line w s l) = snd l.
Proof. intro I. apply label_ok in I as (_ & _ & H1 & H2). unfold line_name, show_line in *. now rewrite before_colon_app. Qed.
Lemma line_value_show w s l : In l display_lines -> line_value (show_line w s l) = format_option w (snd l) (s (snd l)).
Proof. intro I. apply label_ok in I as (H & _). now apply skip_app. Qed.

(** Values are variants of the option. *)
Definition sensible (s : settings) : Prop := forall t i name e, In (i, name, e) (options_of t) -> forall v, s name = Some v -> exists c, In (v, c) (se_vars e).
Lemma format_option_no_lf w s f : sensible s -> In f settings_fields -> no_lf (format_option w f (s f)) = true.
Proof.
  intros HS HF. apply settings_fields_ok in HF as (t & [[i n] e] & HP & <-). cbn [fst snd]. destruct (s n) as [v|] eqn:E; [|easy].
  destruct (HS _ _ _ _ HP v E) as [c HC]. destruct (table_ok w _ _ _ _ HP) as [HT HV]. specialize (HV v c HC). unfold format_option, value_ok in *. rewrite HT.
  destruct (show_option w (se_name e) v); [|easy]. apply andb_true_iff in HV as [HV _]. now apply andb_true_iff in HV as [HV _].
Qed.
Lemma lines_of_show w s : sensible s -> lines_of (show_settings w s) = map (show_line w s) display_lines.
Proof.
  intro HS. apply lines_of_join; [easy|]. apply Forall_forall. intros x X. apply in_map_iff in X as (l & <- & I). unfold show_line. rewrite no_lf_app.
  destruct (label_ok l I) as (_ & -> & _). apply format_option_no_lf; [easy|]. apply (proj1 (lines_fields (snd l))). now apply in_map.
Qed.
Lemma format_option_inj w s s' t i name e : sensible s -> sensible s' -> In (i, name, e) (options_of t) ->
  format_option w name (s name) = format_option w name (s' name) -> s name = s' name.
Proof.
  intros HS HS' HP H. destruct (table_ok w _ _ _ _ HP) as [HT HV]. unfold format_option in H. rewrite HT in H.
  destruct (s name) as [v|] eqn:E, (s' name) as [v'|] eqn:E'; try easy.
  - destruct (HS _ _ _ _ HP v E) as [c HC]. destruct (HS' _ _ _ _ HP v' E') as [c' HC'].
    specialize (HV v c HC). unfold value_ok in HV. destruct (show_option w (se_name e) v) as [x|]; [|easy]. apply andb_true_iff in HV as [_ HV].
    rewrite forallb_forall in HV. specialize (HV _ HC'). cbn [fst] in HV. destruct (show_option w (se_name e) v') as [x'|]; [|easy]. subst x'.
    rewrite String.eqb_refl in HV. cbn [implb] in HV. apply String.eqb_eq in HV. congruence.
  - destruct (HS _ _ _ _ HP v E) as [c HC]. specialize (HV v c HC). unfold value_ok in HV. destruct (show_option w (se_name e) v) as [x|]; [|easy]. subst x.
    now rewrite andb_false_r in HV.
  - destruct (HS' _ _ _ _ HP v' E') as [c HC]. specialize (HV v' c HC). unfold value_ok in HV. destruct (show_option w (se_name e) v') as [x|]; [|easy]. subst x.
    now rewrite andb_false_r in HV.
Qed.

(** *** Loaded settings are sensible *)
Lemma se_variant_in e c v : se_variant e c = Some v -> In (v, c) (se_vars e).
Proof.
  unfold se_variant. destruct (find _ _) as [[v' c']|] eqn:E; [|easy]. intro H. assert (v' = v) as -> by congruence.
  apply find_some in E as [E1 E2]. cbn in E2. apply N.eqb_eq in E2. congruence.
Qed.
Lemma rd_items_variant l : forall buf pos vs p i e v, rd_items l buf pos = Ok (vs, p) -> nth_error l i = Some (IOpt e) -> nth_error vs i = Some (VOpt v) ->
  exists c, In (v, c) (se_vars e).
Proof.
  induction l as [|it l IH]; intros buf pos vs p i e v H HE HV; [now destruct i|]. cbn [rd_items] in H.
  apply bind_inv in H as (x & p1 & HX & H). apply bind_inv in H as (ws & p2 & HW & H). apply ret_inv in H as [<- _].
  destruct i as [|i]; cbn [nth_error] in *; [|now apply (IH _ _ _ _ i e v HW)]. assert (it = IOpt e) as -> by congruence. cbn [rd_item] in HX.
  apply bind_inv in HX as (c & p3 & _ & HX). destruct (se_variant e c) as [s|] eqn:E; [|easy]. apply ret_inv in HX as [<- _].
  assert (s = v) as -> by congruence. exists c. now apply se_variant_in.
Qed.
Lemma rd_setting_variant t buf pos s p i e v : rd_setting t buf pos = Ok (s, p) -> nth_error (items_of t) i = Some (IOpt e) ->
  nth_error (sd_vals (st_data s)) i = Some (VOpt v) -> exists c, In (v, c) (se_vars e).
Proof.
  unfold rd_setting. intros H HE.
  apply bind_inv in H as (n & p0 & _ & H). apply bind_inv in H as (u & p1 & _ & H).
  apply bind_inv in H as (b1 & p2 & _ & H). apply bind_inv in H as (b2 & p3 & _ & H). apply bind_inv in H as (b3 & p4 & _ & H).
  apply bind_inv in H as (m & p5 & _ & H). apply bind_inv in H as (u2 & p6 & _ & H).
  apply bind_inv in H as (d & p7 & HD & H). apply bind_inv in H as (c & p8 & _ & H). apply bind_inv in H as (z & p9 & _ & H).
  apply bind_inv in H as (u3 & p10 & _ & H). apply ret_inv in H as [<- _]. cbn [st_data].
  unfold rd_sdata in HD. destruct (rd_items (items_of t) buf p6) as [[vs q]| |] eqn:HV; try easy. assert (d = mk_sdata t vs) as -> by congruence. cbn [sd_vals]. now apply (rd_items_variant _ _ _ _ _ _ e v HV).
Qed.
Lemma options_items_ok : forallb (fun t => forallb (fun p : nat * string * senum =>
   match nth_error (items_of t) (fst (fst p)) with Some (IOpt e) => String.eqb (se_name e) (se_name (snd p)) | _ => false end) (options_of t)) all_types = true.
Proof. vm_compute. reflexivity. Qed.
Lemma combine_nth {A B} (l : list A) : forall (l' : list B) x y, In (x, y) (combine l l') -> exists k, nth_error l k = Some x /\ nth_error l' k = Some y.
Proof.
  induction l as [|a l IH]; intros [|b l'] x y H; cbn in *; try easy. destruct H as [H|H].
  - exists 0%nat. cbn. split; congruence.
  - destruct (IH _ _ _ H) as (k & K1 & K2). exists (S k). easy.
Qed.
Lemma nth_combine {A B} (l : list A) : forall (l' : list B) j x y, nth_error (combine l l') j = Some (x, y) -> nth_error l j = Some x /\ nth_error l' j = Some y.
Proof. induction l as [|a l IH]; intros [|b l'] [|j] x y H; cbn in *; try easy; [split; congruence|eauto]. Qed.
Lemma options_nth t i name e : In (i, name, e) (options_of t) -> nth_error (names_of t) i = Some name /\ nth_error (items_of t) i = Some (IOpt e).
Proof.
  intro P. unfold options_of in P. apply in_flat_map in P as ([[j m] it] & P & Q). cbn [fst snd] in Q.
  destruct it as [e'|]; [|easy]. destruct Q as [Q|[]]. assert (j = i /\ m = name /\ e' = e) as (-> & -> & ->) by (repeat split; congruence). clear Q.
  apply combine_nth in P as (k & P & P2). apply nth_combine in P as [P P3].
  assert (k < List.length (seq 0 (List.length (items_of t))))%nat as L by (apply nth_error_Some; congruence).
  rewrite nth_error_nth' with (d := 0%nat) in P by easy. rewrite seq_length in L. rewrite seq_nth in P by easy. assert (k = i) as -> by (injection P; lia). easy.
Qed.
Lemma load_sensible fs s : load_settings fs = Ok s -> sensible s.
Proof.
  intros HL t i name e HP v HV. destruct (load_settings_at fs) as (s0 & H0 & A). assert (s0 = s) as -> by congruence.
  specialize (A t _ HP). cbn [fst snd] in A. rewrite HV in A. unfold file_data in A. destruct (options_nth _ _ _ _ HP) as [_ HI].
  destruct (fs (setting_file t)) as [|bs]; [easy|]. destruct (rd_setting t bs 0) as [[st p]| |] eqn:ER; try easy.
  destruct (nth_error (sd_vals (st_data st)) i) as [[x|x]|] eqn:EN; try easy. assert (x = v) as -> by congruence. now apply (rd_setting_variant _ _ _ _ _ _ _ _ ER HI EN).
Qed.
