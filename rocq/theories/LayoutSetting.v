(** * Where settings files store things

    The tables of C70.  Names, places and values agree with the names of the directories in /repo/data/devsetting, djmmysetting, mysetting and
    mysetting2 and the byte in which the file there differs from the default file; values that do not occur there are those of the documentation
    comments of src/setting.rs. *)
From Coq Require Import NArith ZArith List Bool String Lia.
From Coq Require Import ZifyBool ZifyNat ZifyN.
From Verif Require Import Base BaseFacts AnlzCodec Crc CrcFacts Setting SettingFacts SettingSpec Layout.
Import ListNotations.
Open Scope N_scope.

(** ** Specification *)

(** The options of a file: name, place, and the meaning of the bytes. *)
Definition option_table (t : stype) : list (string * N * list (N * string)) :=
  match t with
  | TDev =>
    [("OverviewWaveformType", 113, [(1, "HalfWaveform"); (2, "FullWaveform")]);
     ("WaveformColor", 114, [(1, "Blue"); (3, "Rgb"); (4, "TriBand")]);
     ("KeyDisplayFormat", 116, [(1, "Classic"); (2, "Alphanumeric")]);
     ("WaveformCurrentPosition", 117, [(2, "Left"); (1, "Center")])]
  | TDjm =>
    [("ChannelFaderCurve", 116, [(128, "SteepTop"); (129, "Linear"); (130, "SteepBottom")]);
     ("CrossfaderCurve", 117, [(128, "ConstantPower"); (129, "SlowCut"); (130, "FastCut")]);
     ("HeadphonesPreEQ", 118, [(128, "PostEQ"); (129, "PreEQ")]);
     ("HeadphonesMonoSplit", 119, [(129, "MonoSplit"); (128, "Stereo")]);
     ("BeatFXQuantize", 120, [(128, "Off"); (129, "On")]);
     ("MicLowCut", 121, [(128, "Off"); (129, "On")]);
     ("TalkOverMode", 122, [(128, "Advanced"); (129, "Normal")]);
     ("TalkOverLevel", 123, [(128, "Minus24dB"); (129, "Minus18dB"); (130, "Minus12dB"); (131, "Minus6dB")]);
     ("MidiChannel", 124, [(128, "One"); (129, "Two"); (130, "Three"); (131, "Four"); (132, "Five"); (133, "Six"); (134, "Seven"); (135, "Eight"); (136, "Nine"); (137, "Ten"); (138, "Eleven"); (139, "Twelve"); (140, "Thirteen"); (141, "Fourteen"); (142, "Fifteen"); (143, "Sixteen")]);
     ("MidiButtonType", 125, [(128, "Toggle"); (129, "Trigger")]);
     ("MixerDisplayBrightness", 126, [(128, "White"); (129, "One"); (130, "Two"); (131, "Three"); (132, "Four"); (133, "Five")]);
     ("MixerIndicatorBrightness", 127, [(128, "One"); (129, "Two"); (130, "Three")]);
     ("ChannelFaderCurveLongFader", 128, [(128, "Exponential"); (129, "Smooth"); (130, "Linear")])]
  | TMy =>
    [("OnAirDisplay", 112, [(128, "Off"); (129, "On")]);
     ("LCDBrightness", 113, [(129, "One"); (130, "Two"); (131, "Three"); (132, "Four"); (133, "Five")]);
     ("Quantize", 114, [(128, "Off"); (129, "On")]);
     ("AutoCueLevel", 115, [(135, "Minus78dB"); (134, "Minus72dB"); (133, "Minus66dB"); (132, "Minus60dB"); (131, "Minus54dB"); (130, "Minus48dB"); (129, "Minus42dB"); (128, "Minus36dB"); (136, "Memory")]);
     ("Language", 116, [(129, "English"); (130, "French"); (131, "German"); (132, "Italian"); (133, "Dutch"); (134, "Spanish"); (135, "Russian"); (136, "Korean"); (137, "ChineseSimplified"); (138, "ChineseTraditional"); (139, "Japanese"); (140, "Portuguese"); (141, "Swedish"); (142, "Czech"); (143, "Hungarian"); (144, "Danish"); (145, "Greek"); (146, "Turkish")]);
     ("JogRingBrightness", 118, [(128, "Off"); (129, "Dark"); (130, "Bright")]);
     ("JogRingIndicator", 119, [(128, "Off"); (129, "On")]);
     ("SlipFlashing", 120, [(128, "Off"); (129, "On")]);
     ("DiscSlotIllumination", 124, [(128, "Off"); (129, "Dark"); (130, "Bright")]);
     ("EjectLock", 125, [(128, "Unlock"); (129, "Lock")]);
     ("Sync", 126, [(128, "Off"); (129, "On")]);
     ("PlayMode", 127, [(128, "Continue"); (129, "Single")]);
     ("QuantizeBeatValue", 128, [(131, "EighthBeat"); (130, "QuarterBeat"); (129, "HalfBeat"); (128, "FullBeat")]);
     ("HotCueAutoLoad", 129, [(128, "Off"); (130, "RekordboxSetting"); (129, "On")]);
     ("HotCueColor", 130, [(128, "Off"); (129, "On")]);
     ("NeedleLock", 133, [(128, "Unlock"); (129, "Lock")]);
     ("TimeMode", 136, [(128, "Elapsed"); (129, "Remain")]);
     ("JogMode", 137, [(129, "Vinyl"); (128, "CDJ")]);
     ("AutoCue", 138, [(128, "Off"); (129, "On")]);
     ("MasterTempo", 139, [(128, "Off"); (129, "On")]);
     ("TempoRange", 140, [(128, "SixPercent"); (129, "TenPercent"); (130, "SixteenPercent"); (131, "Wide")]);
     ("PhaseMeter", 141, [(128, "Type1"); (129, "Type2")])]
  | TMy2 =>
    [("VinylSpeedAdjust", 104, [(128, "TouchRelease"); (129, "Touch"); (130, "Release")]);
     ("JogDisplayMode", 105, [(128, "Auto"); (129, "Info"); (130, "Simple"); (131, "Artwork")]);
     ("PadButtonBrightness", 106, [(129, "One"); (130, "Two"); (131, "Three"); (132, "Four")]);
     ("JogLCDBrightness", 107, [(129, "One"); (130, "Two"); (131, "Three"); (132, "Four"); (133, "Five")]);
     ("WaveformDivisions", 108, [(128, "TimeScale"); (129, "Phrase")]);
     ("Waveform", 114, [(128, "Waveform"); (129, "PhaseMeter")]);
     ("BeatJumpBeatValue", 116, [(128, "HalfBeat"); (129, "OneBeat"); (130, "TwoBeat"); (131, "FourBeat"); (132, "EightBeat"); (133, "SixteenBeat"); (134, "ThirtytwoBeat"); (135, "SixtyfourBeat")])]
  end%string.
(** Places with fixed bytes. *)
Definition constant_table (t : stype) : list (N * list N) :=
  match t with
  | TDev => [(104, [0x78; 0x56; 0x34; 0x12; 1; 0; 0; 0; 1]); (115, [1]); (118, repeat 0 18)]
  | TDjm => [(129, repeat 0 27)]
  | TMy => [(131, [0; 0]); (134, [0; 0]); (142, [0; 0])]
  | TMy2 => [(109, repeat 0 5); (117, repeat 0 27)]
  end.
Definition options (vs : list sval) : list string := flat_map (fun v => match v with VOpt x => [x] | _ => [] end) vs.
Definition option_at (buf : list N) (q : string * N * list (N * string)) (v : string) : Prop :=
  exists c, In (c, v) (snd q) /\ getN buf (snd (fst q)) = Some c.
(** A text of at most 31 bytes and a zero. *)
Definition text_at (buf : list N) (pos : N) (s : list N) : Prop := has buf pos (s ++ [0]) /\ len s <= 31.
(** The bytes of data. *)
Definition size_of (t : stype) : N := match t with TDev => 32 | TDjm => 52 | TMy => 40 | TMy2 => 40 end.
Definition settings_layout (buf : list N) (s : setting) : Prop :=
  let t := sd_type (st_data s) in
  number buf 0 4 = Some 96 /\ text_at buf 4 (st_brand s) /\ text_at buf 36 (st_software s) /\ text_at buf 68 (st_version s) /\
  number buf 100 4 = Some (size_of t) /\ Forall2 (option_at buf) (option_table t) (options (sd_vals (st_data s))) /\
  Forall (fun q => has buf (fst q) (snd q)) (constant_table t) /\ (exists c, number buf (104 + size_of t) 2 = Some c) /\ number buf (106 + size_of t) 2 = Some 0.

(** ** Proofs *)
Fixpoint item_table (o : N) (l : list item) : list (string * N * list (N * string)) :=
  match l with
  | [] => []
  | IOpt e :: r => (se_name e, o, map (fun p => (snd p, fst p)) (se_vars e)) :: item_table (o + 1) r
  | IRaw _ d :: r => item_table (o + len d) r
  end.
Fixpoint item_constants (o : N) (l : list item) : list (N * list N) :=
  match l with
  | [] => []
  | IOpt e :: r => item_constants (o + 1) r
  | IRaw (Some c) d :: r => (o, c) :: item_constants (o + len d) r
  | IRaw None d :: r => item_constants (o + len d) r
  end.
Lemma option_table_items t : option_table t = item_table 104 (items_of t).
Proof. destruct t; vm_compute; reflexivity. Qed.
Lemma constant_table_items t : constant_table t = item_constants 104 (items_of t).
Proof. destruct t; vm_compute; reflexivity. Qed.
Lemma items_table buf : forall l vs pos d, forallb item_wfb l = true -> Forall2 item_ok l vs -> enc_items l vs = Ok d -> has buf pos d ->
  Forall2 (option_at buf) (item_table pos l) (options vs) /\ Forall (fun q => has buf (fst q) (snd q)) (item_constants pos l).
Proof.
  induction l as [|i l IH]; intros vs pos d HW HO HE HH; inversion HO as [|i' v l' vs' Hv Hvs E1 E2]; subst; [split; constructor|].
  cbn [forallb] in HW. apply andb_true_iff in HW as [Wi HW]. cbn [enc_items] in HE. destruct (enc_item i v) as [x| |] eqn:X; [|discriminate|discriminate]. cbn [res_bind] in HE.
  destruct (enc_items l vs') as [y| |] eqn:Y; [|discriminate|discriminate]. cbn [res_bind] in HE. apply Ok_eq in HE as <-. apply has_app in HH as [H1 H2].
  destruct i as [e|req d0]; cbn [enc_item item_ok item_table item_constants] in *.
  - destruct v as [v|]; [|discriminate]. destruct (se_code e v) as [c|] eqn:C; [|discriminate]. apply Ok_eq in X as <-. change (len [c]) with 1 in H2.
    destruct (IH vs' (pos + 1) y HW Hvs Y H2) as [A B]. split; [|exact B]. cbn [options flat_map app]. constructor; [|exact A].
    exists c. cbn [fst snd]. split; [|now apply has_cons in H1]. apply se_code_in in C. apply (in_map (fun p => (snd p, fst p))) in C. exact C.
  - destruct v as [|bs]; [now destruct req|]. apply Ok_eq in X as <-. cbn [options flat_map app].
    assert (len bs = len d0) as L.
    { destruct req as [r|]; [|apply Hv]. subst bs. cbn [item_wfb] in Wi. revert Wi. clear. intro. lia. }
    rewrite L in H2. destruct (IH vs' (pos + len d0) y HW Hvs Y H2) as [A B]. destruct req as [r|]; (split; [exact A|]); [|exact B].
    constructor; [|exact B]. cbn [fst snd]. now rewrite <- Hv.
Qed.
Lemma setting_layout buf s d c : setting_ok s -> enc_items (items_of (sd_type (st_data s))) (sd_vals (st_data s)) = Ok d ->
  has buf 0 (le_enc 4 96) -> has buf 4 (st_brand s ++ [0]) -> has buf 36 (st_software s ++ [0]) -> has buf 68 (st_version s ++ [0]) ->
  has buf 100 (le_enc 4 (size_of (sd_type (st_data s)))) -> has buf 104 d -> has buf (104 + size_of (sd_type (st_data s))) (le_enc 2 c) ->
  has buf (106 + size_of (sd_type (st_data s))) (le_enc 2 0) -> settings_layout buf s.
Proof.
  intros (L1 & L2 & L3 & HO) HE H0 H1 H2 H3 H4 H5 H6 H7. unfold settings_layout. cbv zeta.
  apply number_has in H0, H4, H6, H7. destruct (items_table buf _ _ _ _ (layouts_wf _) HO HE H5) as [A B]. rewrite <- option_table_items in A. rewrite <- constant_table_items in B.
  split; [exact H0|]. split; [now split|]. split; [now split|]. split; [now split|]. split; [now destruct (sd_type (st_data s))|]. split; [exact A|]. split; [exact B|].
  split; [eexists; exact H6|exact H7].
Qed.
