(** * Model of [src/setting.rs]: the four kinds of [*SETTING.DAT] files *)
From Coq Require Import NArith List Bool String.
From Verif Require Import Base Crc.
Import ListNotations.
Open Scope N_scope.

(** ** Options

    An option is an enum without data with [#[brw(repr = u8)]]; a value is given by the name of its variant.  The lists
    below are the variants in the order of the source with the discriminants written there. *)
Record senum := mk_senum {
  se_name : string;
  se_src : list (string * option N);
  se_default : string
}.

(** Rust: a variant without discriminant has the one of its predecessor plus one, the first one 0. *)
Fixpoint discr (next : N) (l : list (string * option N)) : list (string * N) :=
  match l with
  | [] => []
  | (v, Some c) :: l => (v, c) :: discr (c + 1) l
  | (v, None) :: l => (v, next) :: discr (next + 1) l
  end.
Definition se_vars (e : senum) : list (string * N) := discr 0 (se_src e).

(** [as u8] *)
Definition se_code (e : senum) (v : string) : option N :=
  match find (fun p => String.eqb (fst p) v) (se_vars e) with Some (_, c) => Some c | None => None end.
(** binrw with [repr = u8]: the first variant whose discriminant is the byte. *)
Definition se_variant (e : senum) (c : N) : option string :=
  match find (fun p => snd p =? c) (se_vars e) with Some (v, _) => Some v | None => None end.

Local Open Scope string_scope.
Local Open Scope N_scope.
(** src/setting.rs:515-523 *)
Definition e_PlayMode : senum := mk_senum "PlayMode"
  [("Continue", Some 128); ("Single", None)] "Single".
(** src/setting.rs:530-536 *)
Definition e_EjectLock : senum := mk_senum "EjectLock"
  [("Unlock", Some 128); ("Lock", None)] "Unlock".
(** src/setting.rs:543-549 *)
Definition e_NeedleLock : senum := mk_senum "NeedleLock"
  [("Unlock", Some 128); ("Lock", None)] "Lock".
(** src/setting.rs:556-570 *)
Definition e_QuantizeBeatValue : senum := mk_senum "QuantizeBeatValue"
  [("EighthBeat", Some 131); ("QuarterBeat", Some 130); ("HalfBeat", Some 129); ("FullBeat", Some 128)] "FullBeat".
(** src/setting.rs:577-586 *)
Definition e_HotCueAutoLoad : senum := mk_senum "HotCueAutoLoad"
  [("Off", Some 128); ("RekordboxSetting", Some 130); ("On", Some 129)] "On".
(** src/setting.rs:593-599 *)
Definition e_HotCueColor : senum := mk_senum "HotCueColor"
  [("Off", Some 128); ("On", None)] "Off".
(** src/setting.rs:606-634 *)
Definition e_AutoCueLevel : senum := mk_senum "AutoCueLevel"
    [("Minus78dB", Some 135); ("Minus72dB", Some 134); ("Minus66dB", Some 133); ("Minus60dB", Some 132);
   ("Minus54dB", Some 131); ("Minus48dB", Some 130); ("Minus42dB", Some 129); ("Minus36dB", Some 128); ("Memory",
   Some 136)] "Memory".
(** src/setting.rs:641-647 *)
Definition e_TimeMode : senum := mk_senum "TimeMode"
  [("Elapsed", Some 128); ("Remain", None)] "Remain".
(** src/setting.rs:654-660 *)
Definition e_AutoCue : senum := mk_senum "AutoCue"
  [("Off", Some 128); ("On", None)] "On".
(** src/setting.rs:667-673 *)
Definition e_JogMode : senum := mk_senum "JogMode"
  [("Vinyl", Some 129); ("CDJ", Some 128)] "Vinyl".
(** src/setting.rs:680-693 *)
Definition e_TempoRange : senum := mk_senum "TempoRange"
  [("SixPercent", Some 128); ("TenPercent", None); ("SixteenPercent", None); ("Wide", None)] "TenPercent".
(** src/setting.rs:700-706 *)
Definition e_MasterTempo : senum := mk_senum "MasterTempo"
  [("Off", Some 128); ("On", None)] "Off".
(** src/setting.rs:713-719 *)
Definition e_Quantize : senum := mk_senum "Quantize"
  [("Off", Some 128); ("On", None)] "On".
(** src/setting.rs:726-732 *)
Definition e_Sync : senum := mk_senum "Sync"
  [("Off", Some 128); ("On", None)] "Off".
(** src/setting.rs:739-747 *)
Definition e_PhaseMeter : senum := mk_senum "PhaseMeter"
  [("Type1", Some 128); ("Type2", None)] "Type1".
(** src/setting.rs:754-761 *)
Definition e_Waveform : senum := mk_senum "Waveform"
  [("Waveform", Some 128); ("PhaseMeter", None)] "Waveform".
(** src/setting.rs:768-775 *)
Definition e_WaveformDivisions : senum := mk_senum "WaveformDivisions"
  [("TimeScale", Some 128); ("Phrase", None)] "Phrase".
(** src/setting.rs:782-791 *)
Definition e_VinylSpeedAdjust : senum := mk_senum "VinylSpeedAdjust"
  [("TouchRelease", Some 128); ("Touch", None); ("Release", None)] "Touch".
(** src/setting.rs:798-824 *)
Definition e_BeatJumpBeatValue : senum := mk_senum "BeatJumpBeatValue"
    [("HalfBeat", Some 128); ("OneBeat", None); ("TwoBeat", None); ("FourBeat", None); ("EightBeat", None);
   ("SixteenBeat", None); ("ThirtytwoBeat", None); ("SixtyfourBeat", None)] "SixteenBeat".
(** src/setting.rs:831-886 *)
Definition e_Language : senum := mk_senum "Language"
    [("English", Some 129); ("French", None); ("German", None); ("Italian", None); ("Dutch", None); ("Spanish",
   None); ("Russian", None); ("Korean", None); ("ChineseSimplified", None); ("ChineseTraditional", None);
   ("Japanese", None); ("Portuguese", None); ("Swedish", None); ("Czech", None); ("Hungarian", None); ("Danish",
   None); ("Greek", None); ("Turkish", None)] "English".
(** src/setting.rs:893-910 *)
Definition e_LCDBrightness : senum := mk_senum "LCDBrightness"
  [("One", Some 129); ("Two", None); ("Three", None); ("Four", None); ("Five", None)] "Three".
(** src/setting.rs:917-934 *)
Definition e_JogLCDBrightness : senum := mk_senum "JogLCDBrightness"
  [("One", Some 129); ("Two", None); ("Three", None); ("Four", None); ("Five", None)] "Three".
(** src/setting.rs:941-951 *)
Definition e_JogDisplayMode : senum := mk_senum "JogDisplayMode"
  [("Auto", Some 128); ("Info", None); ("Simple", None); ("Artwork", None)] "Auto".
(** src/setting.rs:958-964 *)
Definition e_SlipFlashing : senum := mk_senum "SlipFlashing"
  [("Off", Some 128); ("On", None)] "On".
(** src/setting.rs:971-977 *)
Definition e_OnAirDisplay : senum := mk_senum "OnAirDisplay"
  [("Off", Some 128); ("On", None)] "On".
(** src/setting.rs:984-994 *)
Definition e_JogRingBrightness : senum := mk_senum "JogRingBrightness"
  [("Off", Some 128); ("Dark", None); ("Bright", None)] "Bright".
(** src/setting.rs:1001-1007 *)
Definition e_JogRingIndicator : senum := mk_senum "JogRingIndicator"
  [("Off", Some 128); ("On", None)] "On".
(** src/setting.rs:1014-1024 *)
Definition e_DiscSlotIllumination : senum := mk_senum "DiscSlotIllumination"
  [("Off", Some 128); ("Dark", None); ("Bright", None)] "Bright".
(** src/setting.rs:1031-1045 *)
Definition e_PadButtonBrightness : senum := mk_senum "PadButtonBrightness"
  [("One", Some 129); ("Two", None); ("Three", None); ("Four", None)] "Three".
(** src/setting.rs:1052-1063 *)
Definition e_ChannelFaderCurve : senum := mk_senum "ChannelFaderCurve"
  [("SteepTop", Some 128); ("Linear", None); ("SteepBottom", None)] "Linear".
(** src/setting.rs:1070-1083 *)
Definition e_CrossfaderCurve : senum := mk_senum "CrossfaderCurve"
  [("ConstantPower", Some 128); ("SlowCut", None); ("FastCut", None)] "FastCut".
(** src/setting.rs:1090-1098 *)
Definition e_ChannelFaderCurveLongFader : senum := mk_senum "ChannelFaderCurveLongFader"
  [("Exponential", Some 128); ("Smooth", None); ("Linear", None)] "Exponential".
(** src/setting.rs:1105-1113 *)
Definition e_HeadphonesPreEQ : senum := mk_senum "HeadphonesPreEQ"
  [("PostEQ", Some 128); ("PreEQ", None)] "PostEQ".
(** src/setting.rs:1120-1127 *)
Definition e_HeadphonesMonoSplit : senum := mk_senum "HeadphonesMonoSplit"
  [("MonoSplit", Some 129); ("Stereo", Some 128)] "Stereo".
(** src/setting.rs:1134-1140 *)
Definition e_BeatFXQuantize : senum := mk_senum "BeatFXQuantize"
  [("Off", Some 128); ("On", None)] "On".
(** src/setting.rs:1147-1153 *)
Definition e_MicLowCut : senum := mk_senum "MicLowCut"
  [("Off", Some 128); ("On", None)] "On".
(** src/setting.rs:1160-1166 *)
Definition e_TalkOverMode : senum := mk_senum "TalkOverMode"
  [("Advanced", Some 128); ("Normal", None)] "Advanced".
(** src/setting.rs:1173-1187 *)
Definition e_TalkOverLevel : senum := mk_senum "TalkOverLevel"
  [("Minus24dB", Some 128); ("Minus18dB", None); ("Minus12dB", None); ("Minus6dB", None)] "Minus18dB".
(** src/setting.rs:1194-1244 *)
Definition e_MidiChannel : senum := mk_senum "MidiChannel"
    [("One", Some 128); ("Two", None); ("Three", None); ("Four", None); ("Five", None); ("Six", None); ("Seven",
   None); ("Eight", None); ("Nine", None); ("Ten", None); ("Eleven", None); ("Twelve", None); ("Thirteen", None);
   ("Fourteen", None); ("Fifteen", None); ("Sixteen", None)] "One".
(** src/setting.rs:1251-1257 *)
Definition e_MidiButtonType : senum := mk_senum "MidiButtonType"
  [("Toggle", Some 128); ("Trigger", None)] "Toggle".
(** src/setting.rs:1264-1283 *)
Definition e_MixerDisplayBrightness : senum := mk_senum "MixerDisplayBrightness"
  [("White", Some 128); ("One", None); ("Two", None); ("Three", None); ("Four", None); ("Five", None)] "Five".
(** src/setting.rs:1290-1301 *)
Definition e_MixerIndicatorBrightness : senum := mk_senum "MixerIndicatorBrightness"
  [("One", Some 128); ("Two", None); ("Three", None)] "Three".
(** src/setting.rs:1309-1319 *)
Definition e_WaveformColor : senum := mk_senum "WaveformColor"
  [("Blue", Some 1); ("Rgb", Some 3); ("TriBand", Some 4)] "Blue".
(** src/setting.rs:1327-1333 *)
Definition e_WaveformCurrentPosition : senum := mk_senum "WaveformCurrentPosition"
  [("Left", Some 2); ("Center", Some 1)] "Center".
(** src/setting.rs:1341-1349 *)
Definition e_OverviewWaveformType : senum := mk_senum "OverviewWaveformType"
  [("HalfWaveform", Some 1); ("FullWaveform", None)] "HalfWaveform".
(** src/setting.rs:1357-1363 *)
Definition e_KeyDisplayFormat : senum := mk_senum "KeyDisplayFormat"
  [("Classic", Some 1); ("Alphanumeric", None)] "Classic".
(** All of them. *)
Definition all_enums : list senum :=
    [e_PlayMode; e_EjectLock; e_NeedleLock; e_QuantizeBeatValue; e_HotCueAutoLoad; e_HotCueColor; e_AutoCueLevel;
   e_TimeMode; e_AutoCue; e_JogMode; e_TempoRange; e_MasterTempo; e_Quantize; e_Sync; e_PhaseMeter; e_Waveform;
   e_WaveformDivisions; e_VinylSpeedAdjust; e_BeatJumpBeatValue; e_Language; e_LCDBrightness; e_JogLCDBrightness;
   e_JogDisplayMode; e_SlipFlashing; e_OnAirDisplay; e_JogRingBrightness; e_JogRingIndicator;
   e_DiscSlotIllumination; e_PadButtonBrightness; e_ChannelFaderCurve; e_CrossfaderCurve;
   e_ChannelFaderCurveLongFader; e_HeadphonesPreEQ; e_HeadphonesMonoSplit; e_BeatFXQuantize; e_MicLowCut;
   e_TalkOverMode; e_TalkOverLevel; e_MidiChannel; e_MidiButtonType; e_MixerDisplayBrightness;
   e_MixerIndicatorBrightness; e_WaveformColor; e_WaveformCurrentPosition; e_OverviewWaveformType;
   e_KeyDisplayFormat].

Local Close Scope string_scope.

(** ** Layouts *)
Inductive item :=
| IOpt (e : senum)                                    (* an option *)
| IRaw (req : option (list N)) (dflt : list N).       (* other bytes, asserted to have a value on reading or not *)

Inductive sval := VOpt (v : string) | VRaw (bs : list N).

Definition fixed (bs : list N) : item := IRaw (Some bs) bs.
Definition free (bs : list N) : item := IRaw None bs.

(** [DevSetting], src/setting.rs:262-298 *)
Definition dev_items : list item :=
  [fixed [120; 86; 52; 18; 1; 0; 0; 0; 1]; IOpt e_OverviewWaveformType; IOpt e_WaveformColor; fixed [1];
   IOpt e_KeyDisplayFormat; IOpt e_WaveformCurrentPosition; fixed (zeros 18)].
(** [DJMMySetting], src/setting.rs:300-361 *)
Definition djm_items : list item :=
  [free [120; 86; 52; 18; 1; 0; 0; 0; 32; 0; 0; 0]; IOpt e_ChannelFaderCurve; IOpt e_CrossfaderCurve;
   IOpt e_HeadphonesPreEQ; IOpt e_HeadphonesMonoSplit; IOpt e_BeatFXQuantize; IOpt e_MicLowCut; IOpt e_TalkOverMode;
   IOpt e_TalkOverLevel; IOpt e_MidiChannel; IOpt e_MidiButtonType; IOpt e_MixerDisplayBrightness;
   IOpt e_MixerIndicatorBrightness; IOpt e_ChannelFaderCurveLongFader; fixed (zeros 27)].
(** [MySetting], src/setting.rs:363-462; the [u16] fields are asserted to be 0. *)
Definition my_items : list item :=
  [free [120; 86; 52; 18; 2; 0; 0; 0]; IOpt e_OnAirDisplay; IOpt e_LCDBrightness; IOpt e_Quantize; IOpt e_AutoCueLevel;
   IOpt e_Language; free [1]; IOpt e_JogRingBrightness; IOpt e_JogRingIndicator; IOpt e_SlipFlashing; free [1; 1; 1];
   IOpt e_DiscSlotIllumination; IOpt e_EjectLock; IOpt e_Sync; IOpt e_PlayMode; IOpt e_QuantizeBeatValue;
   IOpt e_HotCueAutoLoad; IOpt e_HotCueColor; fixed [0; 0]; IOpt e_NeedleLock; fixed [0; 0]; IOpt e_TimeMode;
   IOpt e_JogMode; IOpt e_AutoCue; IOpt e_MasterTempo; IOpt e_TempoRange; IOpt e_PhaseMeter; fixed [0; 0]].
(** [MySetting2], src/setting.rs:464-508 *)
Definition my2_items : list item :=
  [IOpt e_VinylSpeedAdjust; IOpt e_JogDisplayMode; IOpt e_PadButtonBrightness; IOpt e_JogLCDBrightness;
   IOpt e_WaveformDivisions; fixed (zeros 5); IOpt e_Waveform; free [129]; IOpt e_BeatJumpBeatValue; fixed (zeros 27)].

(** [SettingType], src/setting.rs:158-169 *)
Inductive stype := TDev | TDjm | TMy | TMy2.
Definition items_of (t : stype) : list item :=
  match t with TDev => dev_items | TDjm => djm_items | TMy => my_items | TMy2 => my2_items end.
(** [expected_data_size] and [SettingData::size], src/setting.rs:186-194, 219-226 *)
Definition data_size (t : stype) : N := match t with TDev => 32 | TDjm => 52 | TMy => 40 | TMy2 => 40 end.

(** The [Default] implementations, src/setting.rs:286-298, 339-361, 429-462, 492-508 *)
Definition default_vals (l : list item) : list sval :=
  map (fun i => match i with IOpt e => VOpt (se_default e) | IRaw _ d => VRaw d end) l.

(** Fields are written in order.  Ill-typed values do not exist in Rust; here they give [Panic]. *)
Definition enc_item (i : item) (v : sval) : res (list N) :=
  match i, v with
  | IOpt e, VOpt x => match se_code e x with Some c => Ok [c] | None => Panic end
  | IRaw _ _, VRaw bs => Ok bs
  | _, _ => Panic
  end.
Fixpoint enc_items (l : list item) (vs : list sval) : res (list N) :=
  match l, vs with
  | [], [] => Ok []
  | i :: l, v :: vs => do! x <- enc_item i v; do! y <- enc_items l vs; Ok (x ++ y)
  | _, _ => Panic
  end.

(** Fields are read in order; the assertions are checked after each field. *)
Fixpoint bytes_eqb (a b : list N) : bool :=
  match a, b with
  | [], [] => true
  | x :: a, y :: b => (x =? y) && bytes_eqb a b
  | _, _ => false
  end.
Definition rd_item (i : item) : parser sval :=
  match i with
  | IOpt e => let* c <- rd_u8; match se_variant e c with Some v => ret (VOpt v) | None => fail ENoVariant end
  | IRaw req d =>
      let* bs <- rd_bytes (len d);
      let* _ <- guard (match req with Some r => bytes_eqb bs r | None => true end) EAssertFail;
      ret (VRaw bs)
  end.
Fixpoint rd_items (l : list item) : parser (list sval) :=
  match l with
  | [] => ret []
  | i :: l => let* v <- rd_item i; let* vs <- rd_items l; ret (v :: vs)
  end.

(** [SettingData], src/setting.rs:196-217; on reading, exactly the variant of the given type passes its [pre_assert], and
    every error of it becomes "no variant matched". *)
Record sdata := mk_sdata { sd_type : stype; sd_vals : list sval }.
Definition rd_sdata (t : stype) : parser sdata := fun buf pos =>
  match rd_items (items_of t) buf pos with
  | Ok (vs, p) => Ok (mk_sdata t vs, p)
  | Err _ => Err ENoVariant
  | Panic => Panic
  end.

(** ** [Setting], src/setting.rs:28-79; the strings are the contents of the [NullString]s. *)
Record setting := mk_setting { st_brand : list N; st_software : list N; st_version : list N; st_data : sdata }.

(** A [NullString] with [pad_size_to = 0x20] and the assertion on its length, src/setting.rs:50-57. *)
Definition rd_str32 : parser (list N) :=
  let* s <- rd_pad_to 32 rd_nullstring; let* _ <- guard (len s <=? 31) EAssertFail; ret s.
Definition enc_str32 (s : list N) : res (list N) :=
  if len s <=? 31 then Ok (pad_to 32 (s ++ [0])) else Err EAssertFail.

Definition rd_setting (t : stype) : parser setting :=
  let* n <- rd_le 4;
  let* _ <- guard (n =? 96) EAssertFail;
  let* brand <- rd_str32;
  let* software <- rd_str32;
  let* version <- rd_str32;
  let* m <- rd_le 4;
  let* _ <- guard (m =? data_size t) EAssertFail;
  let* d <- rd_sdata t;
  let* _ <- rd_le 2;
  let* u <- rd_le 2;
  let* _ <- guard (u =? 0) EAssertFail;
  ret (mk_setting brand software version d).

(** Everything in front of the checksum. *)
Definition enc_front (s : setting) : res (list N) :=
  do! brand <- enc_str32 (st_brand s);
  do! software <- enc_str32 (st_software s);
  do! version <- enc_str32 (st_version s);
  do! d <- enc_items (items_of (sd_type (st_data s))) (sd_vals (st_data s));
  Ok (le_enc 4 96 ++ brand ++ software ++ version ++ le_enc 4 (data_size (sd_type (st_data s))) ++ d).

(** Written with [no_checksum = true]: the checksum field is 0. *)
Definition enc_nosum (s : setting) : res (list N) :=
  do! f <- enc_front s; Ok (f ++ le_enc 2 0 ++ le_enc 2 0).

(** [calculate_checksum], src/setting.rs:134-155: [unwrap], and the slice [data[start..end]]. *)
Definition checksum (s : setting) : res N :=
  match enc_nosum s with
  | Ok data =>
      let start := match sd_type (st_data s) with TDjm => 0 | _ => 104 end in
      if (len data <? 4) || (len data - 4 <? start) then Panic
      else Ok (crc16 (takeN (len data - 4 - start) (dropN start data)))
  | _ => Panic
  end.

(** Written as a file ([no_checksum = false]). *)
Definition enc_setting (s : setting) : res (list N) :=
  do! f <- enc_front s;
  do! c <- checksum s;
  Ok (f ++ le_enc 2 c ++ le_enc 2 0).

(** ** Defaults, src/setting.rs:81-126 *)
Definition s_rekordbox : list N := [114; 101; 107; 111; 114; 100; 98; 111; 120].
Definition s_version : list N := [54; 46; 54; 46; 49].
Definition s_PIONEER : list N := [80; 73; 79; 78; 69; 69; 82].
Definition s_PIONEER_DJ : list N := s_PIONEER ++ [32; 68; 74].
Definition s_PioneerDJ : list N := [80; 105; 111; 110; 101; 101; 114; 68; 74].
Definition default_brand (t : stype) : list N :=
  match t with TDev => s_PIONEER_DJ | TDjm => s_PioneerDJ | TMy | TMy2 => s_PIONEER end.
Definition default_setting (t : stype) : setting :=
  mk_setting (default_brand t) s_rekordbox s_version (mk_sdata t (default_vals (items_of t))).
