(** * Model of [src/device.rs]: loading settings, and the playlist tree *)
From Coq Require Import NArith List Bool String.
From Verif Require Import Base Str Schema Rows Page Db Setting.
Import ListNotations.
Open Scope N_scope.

(** ** Settings *)
Local Open Scope string_scope.
(** Field names of [DevSetting], in the order of its items; src/setting.rs:262-284 *)
Definition dev_names : list string :=
  ["unknown1"; "overview_waveform_type"; "waveform_color"; "unknown2"; "key_display_format";
   "waveform_current_position"; "unknown3"].
(** Field names of [DJMMySetting], in the order of its items; src/setting.rs:300-337 *)
Definition djm_names : list string :=
  ["unknown1"; "channel_fader_curve"; "crossfader_curve"; "headphones_pre_eq"; "headphones_mono_split";
   "beat_fx_quantize"; "mic_low_cut"; "talk_over_mode"; "talk_over_level"; "midi_channel"; "midi_button_type";
   "display_brightness"; "indicator_brightness"; "channel_fader_curve_long_fader"; "unknown2"].
(** Field names of [MySetting], in the order of its items; src/setting.rs:363-427 *)
Definition my_names : list string :=
  ["unknown1"; "on_air_display"; "lcd_brightness"; "quantize"; "auto_cue_level"; "language"; "unknown2";
   "jog_ring_brightness"; "jog_ring_indicator"; "slip_flashing"; "unknown3"; "disc_slot_illumination";
   "eject_lock"; "sync"; "play_mode"; "quantize_beat_value"; "hotcue_autoload"; "hotcue_color"; "unknown4";
   "needle_lock"; "unknown5"; "time_mode"; "jog_mode"; "auto_cue"; "master_tempo"; "tempo_range"; "phase_meter";
   "unknown6"].
(** Field names of [MySetting2], in the order of its items; src/setting.rs:464-490 *)
Definition my2_names : list string :=
  ["vinyl_speed_adjust"; "jog_display_mode"; "pad_button_brightness"; "jog_lcd_brightness";
   "waveform_divisions"; "unknown1"; "waveform"; "unknown2"; "beat_jump_beat_value"; "unknown3"].
(** [set_devsetting], src/device.rs:247-252: destination and source of each assignment *)
Definition dev_assigns : list (string * string) :=
  [("overview_waveform_type", "overview_waveform_type"); ("waveform_color", "waveform_color");
   ("key_display_format", "key_display_format"); ("waveform_current_position", "waveform_current_position")].
(** [set_djmmysetting], src/device.rs:231-245: destination and source of each assignment *)
Definition djm_assigns : list (string * string) :=
  [("channel_fader_curve", "channel_fader_curve"); ("crossfader_curve", "crossfader_curve");
   ("headphones_pre_eq", "headphones_pre_eq"); ("headphones_mono_split", "headphones_mono_split");
   ("beat_fx_quantize", "beat_fx_quantize"); ("mic_low_cut", "mic_low_cut"); ("talk_over_mode",
   "talk_over_mode"); ("talk_over_level", "talk_over_level"); ("midi_channel", "midi_channel");
   ("midi_button_type", "midi_button_type"); ("display_brightness", "display_brightness");
   ("indicator_brightness", "indicator_brightness"); ("channel_fader_curve_long_fader",
   "channel_fader_curve_long_fader")].
(** [set_mysetting], src/device.rs:196-219: destination and source of each assignment *)
Definition my_assigns : list (string * string) :=
  [("on_air_display", "on_air_display"); ("lcd_brightness", "lcd_brightness"); ("quantize", "quantize");
   ("auto_cue_level", "auto_cue_level"); ("language", "language"); ("jog_ring_brightness",
   "jog_ring_brightness"); ("jog_ring_indicator", "jog_ring_indicator"); ("slip_flashing", "slip_flashing");
   ("disc_slot_illumination", "disc_slot_illumination"); ("eject_lock", "eject_lock"); ("sync", "sync");
   ("play_mode", "play_mode"); ("quantize_beat_value", "quantize_beat_value"); ("hotcue_autoload",
   "hotcue_autoload"); ("hotcue_color", "hotcue_color"); ("needle_lock", "needle_lock"); ("time_mode",
   "time_mode"); ("jog_mode", "jog_mode"); ("auto_cue", "auto_cue"); ("master_tempo", "master_tempo");
   ("tempo_range", "tempo_range"); ("phase_meter", "phase_meter")].
(** [set_mysetting2], src/device.rs:221-229: destination and source of each assignment *)
Definition my2_assigns : list (string * string) :=
  [("vinyl_speed_adjust", "vinyl_speed_adjust"); ("jog_display_mode", "jog_display_mode");
   ("pad_button_brightness", "pad_button_brightness"); ("jog_lcd_brightness", "jog_lcd_brightness");
   ("waveform_divisions", "waveform_divisions"); ("waveform", "waveform"); ("beat_jump_beat_value",
   "beat_jump_beat_value")].
(** The fields of [Settings], src/device.rs:93-193 *)
Definition settings_fields : list string :=
  ["on_air_display"; "lcd_brightness"; "quantize"; "auto_cue_level"; "language"; "jog_ring_brightness";
   "jog_ring_indicator"; "slip_flashing"; "disc_slot_illumination"; "eject_lock"; "sync"; "play_mode";
   "quantize_beat_value"; "hotcue_autoload"; "hotcue_color"; "needle_lock"; "time_mode"; "jog_mode"; "auto_cue";
   "master_tempo"; "tempo_range"; "phase_meter"; "vinyl_speed_adjust"; "jog_display_mode";
   "pad_button_brightness"; "jog_lcd_brightness"; "waveform_divisions"; "waveform"; "beat_jump_beat_value";
   "channel_fader_curve"; "crossfader_curve"; "headphones_pre_eq"; "headphones_mono_split"; "beat_fx_quantize";
   "mic_low_cut"; "talk_over_mode"; "talk_over_level"; "midi_channel"; "midi_button_type"; "display_brightness";
   "indicator_brightness"; "channel_fader_curve_long_fader"; "overview_waveform_type"; "waveform_color";
   "key_display_format"; "waveform_current_position"].

(** The file names, src/device.rs:67-78 *)
Definition setting_file (t : stype) : string :=
  match t with TDev => "DEVSETTING.DAT" | TDjm => "DJMMYSETTING.DAT" | TMy => "MYSETTING.DAT" | TMy2 => "MYSETTING2.DAT" end.
Local Close Scope string_scope.
Definition names_of (t : stype) : list string :=
  match t with TDev => dev_names | TDjm => djm_names | TMy => my_names | TMy2 => my2_names end.
Definition assigns_of (t : stype) : list (string * string) :=
  match t with TDev => dev_assigns | TDjm => djm_assigns | TMy => my_assigns | TMy2 => my2_assigns end.

(** [Settings]: the value of each field, [None] by default. *)
Definition settings := string -> option string.
Definition no_settings : settings := fun _ => None.

(** [data.field.into()] *)
Fixpoint field_val (names : list string) (vs : list sval) (f : string) : option string :=
  match names, vs with
  | n :: names, v :: vs => if String.eqb n f then match v with VOpt x => Some x | VRaw _ => None end else field_val names vs f
  | _, _ => None
  end.
Definition upd (s : settings) (f : string) (v : option string) : settings := fun g => if String.eqb f g then v else s g.
(** [set_devsetting] etc., src/device.rs:195-252 *)
Definition set_data (t : stype) (vs : list sval) (s : settings) : settings :=
  fold_left (fun s a => upd s (fst a) (field_val (names_of t) vs (snd a))) (assigns_of t) s.

(** A file in the directory [PIONEER]: it cannot be opened or read, or it has these bytes. *)
Inductive fstate := FsError | FsBytes (bs : list N).
(** [read_setting_file], src/device.rs:44-48 *)
Definition read_setting_file (f : fstate) (t : stype) : res setting :=
  match f with
  | FsError => Err EIo
  | FsBytes bs => match rd_setting t bs 0 with Ok (s, _) => Ok s | Err e => Err e | Panic => Panic end
  end.
(** [as_dev_setting] etc., src/setting.rs:228-260 *)
Definition stype_eqb (a b : stype) : bool :=
  match a, b with TDev, TDev | TDjm, TDjm | TMy, TMy | TMy2, TMy2 => true | _, _ => false end.
Definition as_setting (t : stype) (d : sdata) : option (list sval) := if stype_eqb (sd_type d) t then Some (sd_vals d) else None.
(** One step of [load_settings], src/device.rs:56-78: errors give a warning and nothing else; [unwrap] of the accessor. *)
Definition load_one (fs : string -> fstate) (t : stype) (s : settings) : res settings :=
  match read_setting_file (fs (setting_file t)) t with
  | Ok st => match as_setting t (st_data st) with Some vs => Ok (set_data t vs s) | None => Panic end
  | Err _ => Ok s
  | Panic => Panic
  end.
(** [load_settings], src/device.rs:52-81 *)
Definition load_settings (fs : string -> fstate) : res settings :=
  do! s <- load_one fs TDev no_settings;
  do! s <- load_one fs TDjm s;
  do! s <- load_one fs TMy s;
  load_one fs TMy2 s.

(** ** Playlist tree *)

(** The parts of a [PlaylistTreeNode] row that are used, src/pdb/mod.rs:1470-1511 *)
Record node := mk_node { nd_parent : N; nd_id : N; nd_isf : N; nd_name : dstr }.
Definition nd_folder (n : node) : bool := 0 <? nd_isf n.
Definition node_of_row (r : row) : option node :=
  match r with
  | RRow KPlaylistTreeNode [VInt p; VInt _; VInt _; VInt i; VInt f; VStr s] _ => Some (mk_node p i f s)
  | _ => None
  end.

(** [HashMap<K, Vec<V>>] with [entry(k).or_default().push(v)] *)
Fixpoint mm_push {V} (m : list (N * list V)) (k : N) (v : V) : list (N * list V) :=
  match m with
  | [] => [(k, [v])]
  | (k', vs) :: m => if k' =? k then (k', vs ++ [v]) :: m else (k', vs) :: mm_push m k v
  end.
Fixpoint mm_get {V} (m : list (N * V)) (k : N) : option V :=
  match m with
  | [] => None
  | (k', v) :: m => if k' =? k then Some v else mm_get m k
  end.
Definition by_parent (ns : list node) : list (N * list node) := fold_left (fun m n => mm_push m (nd_parent n) n) ns [].

(** [PlaylistNode], src/device.rs:496-522 *)
Inductive pnode : Type :=
| PFolder (id : N) (name : list N) (children : list pnode)
| PPlaylist (id : N) (name : list N).

Inductive perr := PDb (e : dberr) | PEncoding.
Inductive outcome (A : Type) := Done (x : A) | Fail (e : perr) | Crash.
Arguments Done {A} x. Arguments Fail {A} e. Arguments Crash {A}.

(** Iterators of results, collected: up to the first that is not [Done].  [None]: not finished within the given depth. *)
Fixpoint collect_map {A B} (f : A -> option (outcome B)) (l : list A) : option (outcome (list B)) :=
  match l with
  | [] => Some (Done [])
  | x :: l =>
    match f x with
    | Some (Done y) => match collect_map f l with Some (Done ys) => Some (Done (y :: ys)) | r => r end
    | Some (Fail e) => Some (Fail e)
    | Some Crash => Some Crash
    | None => None
    end
  end.

(** [get_child_nodes], src/device.rs:536-562, with a bound on the depth of the recursion. *)
Fixpoint child_nodes (depth : nat) (m : list (N * list node)) (id : N) : option (outcome (list pnode)) :=
  match depth with
  | O => None
  | S depth =>
    collect_map (fun n =>
      match dstr_into_string (nd_name n) with
      | inl s =>
        if nd_folder n then
          match child_nodes depth m (nd_id n) with
          | Some (Done ch) => Some (Done (PFolder (nd_id n) s ch))
          | Some (Fail e) => Some (Fail e)
          | Some Crash => Some Crash
          | None => None
          end
        else Some (Done (PPlaylist (nd_id n) s))
      | inr _ => Some (Fail PEncoding)
      end) (match mm_get m id with Some ns => ns | None => [] end)
  end.
Definition playlist_tree (depth : nat) (ns : list node) : option (outcome (list pnode)) := child_nodes depth (by_parent ns) 0.

(** All or none. *)
Fixpoint all_some {A} (l : list (option A)) : option (list A) :=
  match l with
  | [] => Some []
  | Some x :: l => option_map (cons x) (all_some l)
  | None :: _ => None
  end.
(** [get_playlists], src/device.rs:525-565.  [iter_rows] gives only rows of the wanted type; others are a panic there. *)
Definition get_playlists (b : build) (depth : nat) (d : database) : option (outcome (list pnode)) :=
  match snd (iter_rows b KPlaylistTreeNode d) with
  | Some (DOk rows) => match all_some (map node_of_row rows) with Some ns => playlist_tree depth ns | None => Some Crash end
  | Some (DErr e) => Some (Fail (PDb e))
  | Some DPanic => Some Crash
  | None => None
  end.
