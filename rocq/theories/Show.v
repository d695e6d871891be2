(** * Listing settings: src/device.rs:255-491, src/main.rs:259-268, and the texts of options in src/setting.rs

    Texts are strings of bytes (UTF-8).  The derive macro [parse_display::Display] is not part of the repository: a variant is shown as the text
    of its attribute [display], or as its own name if it has none.  One variant has two such attributes; which of them counts is left open
    ([pick]). *)
From Coq Require Import NArith List Bool String Ascii.
From Verif Require Import Base Setting Device.
Import ListNotations.
Local Open Scope string_scope.

(** Which one of several attributes [display] counts. *)
Inductive pick := First | Last.

(** The attributes [display] of the variants, in the order of the source; src/setting.rs:513-1363 *)
Definition display_attrs : list (string * list (string * list string)) :=
  [
   (* 515-523 *)
   ("PlayMode",
    [("Continue", ["Continue / On"]); ("Single", ["Single / Off"])]);
   (* 530-536 *)
   ("EjectLock",
    [("Unlock", []); ("Lock", [])]);
   (* 543-549 *)
   ("NeedleLock",
    [("Unlock", []); ("Lock", [])]);
   (* 556-570 *)
   ("QuantizeBeatValue",
    [("EighthBeat", ["1/8 Beat"]); ("QuarterBeat", ["1/4 Beat"]); ("HalfBeat", ["1/2 Beat"]); ("FullBeat", ["1 Beat"])]);
   (* 577-586 *)
   ("HotCueAutoLoad",
    [("Off", []); ("RekordboxSetting", ["rekordbox SETTING"]); ("On", [])]);
   (* 593-599 *)
   ("HotCueColor",
    [("Off", []); ("On", [])]);
   (* 606-634 *)
   ("AutoCueLevel",
    [("Minus78dB", ["-78dB"]); ("Minus72dB", ["-72dB"]); ("Minus66dB", ["-66dB"]); ("Minus60dB", ["-60dB"]); ("Minus54dB", ["-54dB"]);
    ("Minus48dB", ["-48dB"]); ("Minus42dB", ["-42dB"]); ("Minus36dB", ["-36dB"]); ("Memory", [])]);
   (* 641-647 *)
   ("TimeMode",
    [("Elapsed", []); ("Remain", [])]);
   (* 654-660 *)
   ("AutoCue",
    [("Off", []); ("On", [])]);
   (* 667-673 *)
   ("JogMode",
    [("Vinyl", []); ("CDJ", [])]);
   (* 680-693 *)
   ("TempoRange",
    [("SixPercent", ["±6%"]); ("TenPercent", ["±10%"]); ("SixteenPercent", ["±16%"]); ("Wide", [])]);
   (* 700-706 *)
   ("MasterTempo",
    [("Off", []); ("On", [])]);
   (* 713-719 *)
   ("Quantize",
    [("Off", []); ("On", [])]);
   (* 726-732 *)
   ("Sync",
    [("Off", []); ("On", [])]);
   (* 739-747 *)
   ("PhaseMeter",
    [("Type1", ["Type 1"]); ("Type2", ["Type 2"])]);
   (* 754-761 *)
   ("Waveform",
    [("Waveform", []); ("PhaseMeter", ["Phase Meter"])]);
   (* 768-775 *)
   ("WaveformDivisions",
    [("TimeScale", ["Time Scale"]); ("Phrase", [])]);
   (* 782-791 *)
   ("VinylSpeedAdjust",
    [("TouchRelease", ["Touch & Release"]); ("Touch", []); ("Release", [])]);
   (* 798-824 *)
   ("BeatJumpBeatValue",
    [("HalfBeat", ["1/2 Beat"]); ("OneBeat", ["1 Beat"]); ("TwoBeat", ["2 Beat"]); ("FourBeat", ["4 Beat"]); ("EightBeat", ["8 Beat"]);
    ("SixteenBeat", ["16 Beat"]); ("ThirtytwoBeat", ["32 Beat"]); ("SixtyfourBeat", ["64 Beat"])]);
   (* 831-886 *)
   ("Language",
    [("English", []); ("French", ["Français"]); ("German", ["Deutsch"]); ("Italian", ["Italiano"]); ("Dutch", ["Nederlands"]);
    ("Spanish", ["Español"]); ("Russian", ["Русский"]); ("Korean", ["한국어"]); ("ChineseSimplified", []); ("ChineseTraditional", ["简体中文"; "繁體中文"]);
    ("Japanese", ["日本語"]); ("Portuguese", ["Português"]); ("Swedish", ["Svenska"]); ("Czech", ["Čeština"]); ("Hungarian", ["Magyar"]);
    ("Danish", ["Dansk"]); ("Greek", ["Ελληνικά"]); ("Turkish", ["Türkçe"])]);
   (* 893-910 *)
   ("LCDBrightness",
    [("One", ["1"]); ("Two", ["2"]); ("Three", ["3"]); ("Four", ["4"]); ("Five", ["5"])]);
   (* 917-934 *)
   ("JogLCDBrightness",
    [("One", ["1"]); ("Two", ["2"]); ("Three", ["3"]); ("Four", ["4"]); ("Five", ["5"])]);
   (* 941-951 *)
   ("JogDisplayMode",
    [("Auto", []); ("Info", []); ("Simple", []); ("Artwork", [])]);
   (* 958-964 *)
   ("SlipFlashing",
    [("Off", []); ("On", [])]);
   (* 971-977 *)
   ("OnAirDisplay",
    [("Off", []); ("On", [])]);
   (* 984-994 *)
   ("JogRingBrightness",
    [("Off", []); ("Dark", ["1 (Dark)"]); ("Bright", ["2 (Bright)"])]);
   (* 1001-1007 *)
   ("JogRingIndicator",
    [("Off", []); ("On", [])]);
   (* 1014-1024 *)
   ("DiscSlotIllumination",
    [("Off", []); ("Dark", ["1 (Dark)"]); ("Bright", ["2 (Bright)"])]);
   (* 1031-1045 *)
   ("PadButtonBrightness",
    [("One", ["1"]); ("Two", ["2"]); ("Three", ["3"]); ("Four", ["4"])]);
   (* 1052-1063 *)
   ("ChannelFaderCurve",
    [("SteepTop", ["Steep Top"]); ("Linear", ["Linear"]); ("SteepBottom", ["Steep Bottom"])]);
   (* 1070-1083 *)
   ("CrossfaderCurve",
    [("ConstantPower", ["Constant Power"]); ("SlowCut", ["Slow Cut"]); ("FastCut", ["Fast Cut"])]);
   (* 1090-1098 *)
   ("ChannelFaderCurveLongFader",
    [("Exponential", []); ("Smooth", []); ("Linear", [])]);
   (* 1105-1113 *)
   ("HeadphonesPreEQ",
    [("PostEQ", ["Post EQ"]); ("PreEQ", ["Pre EQ"])]);
   (* 1120-1127 *)
   ("HeadphonesMonoSplit",
    [("MonoSplit", ["Mono Split"]); ("Stereo", [])]);
   (* 1134-1140 *)
   ("BeatFXQuantize",
    [("Off", []); ("On", [])]);
   (* 1147-1153 *)
   ("MicLowCut",
    [("Off", []); ("On", [])]);
   (* 1160-1166 *)
   ("TalkOverMode",
    [("Advanced", []); ("Normal", [])]);
   (* 1173-1187 *)
   ("TalkOverLevel",
    [("Minus24dB", ["-24dB"]); ("Minus18dB", ["-18dB"]); ("Minus12dB", ["-12dB"]); ("Minus6dB", ["-6dB"])]);
   (* 1194-1244 *)
   ("MidiChannel",
    [("One", ["1"]); ("Two", ["2"]); ("Three", ["3"]); ("Four", ["4"]); ("Five", ["5"]); ("Six", ["6"]); ("Seven", ["7"]); ("Eight", ["8"]);
    ("Nine", ["9"]); ("Ten", ["10"]); ("Eleven", ["11"]); ("Twelve", ["12"]); ("Thirteen", ["13"]); ("Fourteen", ["14"]); ("Fifteen", ["15"]);
    ("Sixteen", ["16"])]);
   (* 1251-1257 *)
   ("MidiButtonType",
    [("Toggle", []); ("Trigger", [])]);
   (* 1264-1283 *)
   ("MixerDisplayBrightness",
    [("White", []); ("One", ["1"]); ("Two", ["2"]); ("Three", ["3"]); ("Four", ["4"]); ("Five", ["5"])]);
   (* 1290-1301 *)
   ("MixerIndicatorBrightness",
    [("One", ["1"]); ("Two", ["2"]); ("Three", ["3"])]);
   (* 1309-1319 *)
   ("WaveformColor",
    [("Blue", []); ("Rgb", ["RGB"]); ("TriBand", ["3Band"])]);
   (* 1327-1333 *)
   ("WaveformCurrentPosition",
    [("Left", []); ("Center", [])]);
   (* 1341-1349 *)
   ("OverviewWaveformType",
    [("HalfWaveform", ["Half Waveform"]); ("FullWaveform", ["Full Waveform"])]);
   (* 1357-1363 *)
   ("KeyDisplayFormat",
    [("Classic", []); ("Alphanumeric", [])])].

(** [to_string] of a variant of an option; [None]: no such variant. *)
Fixpoint assoc {A} (k : string) (l : list (string * A)) : option A :=
  match l with [] => None | (k', v) :: r => if String.eqb k' k then Some v else assoc k r end.
Definition shown (w : pick) (variant : string) (attrs : list string) : string :=
  match w with First => hd variant attrs | Last => last attrs variant end.
Definition show_option (w : pick) (e v : string) : option string :=
  match assoc e display_attrs with
  | Some vs => match assoc v vs with Some attrs => Some (shown w v attrs) | None => None end
  | None => None
  end.

(** The types of the fields of [Settings], src/device.rs:93-193 *)
Definition field_types : list (string * string) :=
  [("on_air_display", "OnAirDisplay"); ("lcd_brightness", "LCDBrightness"); ("quantize", "Quantize"); ("auto_cue_level", "AutoCueLevel");
   ("language", "Language"); ("jog_ring_brightness", "JogRingBrightness"); ("jog_ring_indicator", "JogRingIndicator");
   ("slip_flashing", "SlipFlashing"); ("disc_slot_illumination", "DiscSlotIllumination"); ("eject_lock", "EjectLock"); ("sync", "Sync");
   ("play_mode", "PlayMode"); ("quantize_beat_value", "QuantizeBeatValue"); ("hotcue_autoload", "HotCueAutoLoad"); ("hotcue_color", "HotCueColor");
   ("needle_lock", "NeedleLock"); ("time_mode", "TimeMode"); ("jog_mode", "JogMode"); ("auto_cue", "AutoCue"); ("master_tempo", "MasterTempo");
   ("tempo_range", "TempoRange"); ("phase_meter", "PhaseMeter"); ("vinyl_speed_adjust", "VinylSpeedAdjust"); ("jog_display_mode", "JogDisplayMode");
   ("pad_button_brightness", "PadButtonBrightness"); ("jog_lcd_brightness", "JogLCDBrightness"); ("waveform_divisions", "WaveformDivisions");
   ("waveform", "Waveform"); ("beat_jump_beat_value", "BeatJumpBeatValue"); ("channel_fader_curve", "ChannelFaderCurve");
   ("crossfader_curve", "CrossfaderCurve"); ("headphones_pre_eq", "HeadphonesPreEQ"); ("headphones_mono_split", "HeadphonesMonoSplit");
   ("beat_fx_quantize", "BeatFXQuantize"); ("mic_low_cut", "MicLowCut"); ("talk_over_mode", "TalkOverMode"); ("talk_over_level", "TalkOverLevel");
   ("midi_channel", "MidiChannel"); ("midi_button_type", "MidiButtonType"); ("display_brightness", "MixerDisplayBrightness");
   ("indicator_brightness", "MixerIndicatorBrightness"); ("channel_fader_curve_long_fader", "ChannelFaderCurveLongFader");
   ("overview_waveform_type", "OverviewWaveformType"); ("waveform_color", "WaveformColor"); ("key_display_format", "KeyDisplayFormat");
   ("waveform_current_position", "WaveformCurrentPosition")].

(** The lines of [fmt], src/device.rs:262-491: what is in front of the value, and the field.  The last line has no line feed. *)
Definition display_lines : list (string * string) :=
  [("On Air Display:                 ", "on_air_display"); ("LCD Brightness:                 ", "lcd_brightness");
   ("Quantize:                       ", "quantize"); ("Auto Cue Level:                 ", "auto_cue_level");
   ("Language:                       ", "language"); ("Jog Ring Brightness:            ", "jog_ring_brightness");
   ("Jog Ring Indicator:             ", "jog_ring_indicator"); ("Slip Flashing:                  ", "slip_flashing");
   ("Disc Slot Illumination:         ", "disc_slot_illumination"); ("Eject Lock:                     ", "eject_lock");
   ("Sync:                           ", "sync"); ("Play Mode:                      ", "play_mode");
   ("Quantize Beat Value:            ", "quantize_beat_value"); ("Hotcue Autoload:                ", "hotcue_autoload");
   ("Hotcue Color:                   ", "hotcue_color"); ("Needle Lock:                    ", "needle_lock");
   ("Time Mode:                      ", "time_mode"); ("Jog Mode:                       ", "jog_mode");
   ("Auto Cue:                       ", "auto_cue"); ("Master Tempo:                   ", "master_tempo");
   ("Tempo Range:                    ", "tempo_range"); ("Phase Meter:                    ", "phase_meter");
   ("Vinyl Speed Adjust:             ", "vinyl_speed_adjust"); ("Jog Display Mode:               ", "jog_display_mode");
   ("Pad Button Brightness:          ", "pad_button_brightness"); ("Jog LCD Brightness:             ", "jog_lcd_brightness");
   ("Waveform Divisions:             ", "waveform_divisions"); ("Waveform:                       ", "waveform");
   ("Beat Jump Beat Value:           ", "beat_jump_beat_value"); ("Channel Fader Curve:            ", "channel_fader_curve");
   ("Crossfader Curve:               ", "crossfader_curve"); ("Headphones Pre Eq:              ", "headphones_pre_eq");
   ("Headphones Mono Split:          ", "headphones_mono_split"); ("Beat FX Quantize:               ", "beat_fx_quantize");
   ("Mic Low Cut:                    ", "mic_low_cut"); ("Talk Over Mode:                 ", "talk_over_mode");
   ("Talk Over Level:                ", "talk_over_level"); ("MIDI Channel:                   ", "midi_channel");
   ("MIDI Button Type:               ", "midi_button_type"); ("Display Brightness:             ", "display_brightness");
   ("Indicator Brightness:           ", "indicator_brightness"); ("Channel Fader Curve Long Fader: ", "channel_fader_curve_long_fader");
   ("Overview Waveform Type:         ", "overview_waveform_type"); ("Waveform Color:                 ", "waveform_color");
   ("Key Display Format:             ", "key_display_format"); ("Waveform Current Position:      ", "waveform_current_position")].

(** [format_option], src/device.rs:257-260.  A value that is no variant has no counterpart in Rust, it is shown as nothing. *)
Definition format_option (w : pick) (f : string) (v : option string) : string :=
  match v with
  | None => "<missing>"
  | Some v => match assoc f field_types with
              | Some e => match show_option w e v with Some t => t | None => "" end
              | None => ""
              end
  end.
Definition LF : string := String "010"%char "".
Definition show_line (w : pick) (s : settings) (l : string * string) : string := fst l ++ format_option w (snd l) (s (snd l)).
(** [writeln] for all lines but the last. *)
Fixpoint join_lines (ls : list string) : string :=
  match ls with [] => "" | [l] => l | l :: r => l ++ LF ++ join_lines r end.
Definition show_settings (w : pick) (s : settings) : string := join_lines (map (show_line w s) display_lines).
(** [list_settings], src/main.rs:259-268: what is printed *)
Definition list_settings (w : pick) (fs : string -> fstate) : res string :=
  match load_settings fs with Ok s => Ok (show_settings w s) | Err e => Err e | Panic => Panic end.
