(** * Specification of analysis sections: values that exist, and sizes that agree *)
From Coq Require Import NArith ZArith List Bool Lia.
From Verif Require Import Base Utf Str Schema Anlz AnlzFacts.
Import ListNotations.
Open Scope N_scope.

(** ** Values whose integers are in range, and whose lists are short enough for the field with their number *)
Definition cue_ok (c : cue) : Prop := header_ok (cue_header c) /\ plain_ok cue_fields (cue_values c).

(** The comment is a Unicode string that does not end with NUL, and the rest of the entry has the announced size. *)
Definition ecue_ok (c : ecue) : Prop :=
  header_ok (ec_header c) /\ plain_ok ecue_fields (ec_values c) /\ plain_ok ecue_more_fields (ec_more c) /\
  ustr_ok (ec_comment c) /\ ~ ends_nul (ec_comment c) /\ 68 + comment_size (ec_comment c) < 2 ^ 32 /\
  bytes_ok (ec_trailing c) /\ len (ec_trailing c) = h_total (ec_header c) - (68 + comment_size (ec_comment c)).

Definition wave_kind (w : wave) : ckind :=
  match w with
  | WPreview => KWaveformPreview | WTiny => KTinyWaveformPreview | WDetail => KWaveformDetail
  | WColorPreview => KWaveformColorPreview | WColorDetail => KWaveformColorDetail
  | W3Preview => KWaveform3BandPreview | W3Detail => KWaveform3BandDetail
  end.
(** The size of a column in bytes. *)
Definition column_size (w : wave) : N :=
  match w with WPreview | WTiny | WDetail => 1 | WColorPreview => 6 | WColorDetail => 2 | W3Preview | W3Detail => 3 end.
Definition wave_ok (f : waveform) : Prop :=
  match wf_type f, wf_unknown f with
  | W3Preview, None => True
  | (WDetail | W3Detail), Some u => u = 0x00960000
  | (WPreview | WTiny | WColorPreview | WColorDetail), Some u => u < 2 ^ 32
  | _, _ => False
  end /\
  Forall (plain_ok (wave_fields (wf_type f))) (wf_data f).

Definition song_data_ok (d : song_data) : Prop := plain_ok song_fields (sd_values d) /\ Forall (plain_ok phrase_fields) (sd_phrases d).
(** With overflow checks the key cannot be computed for some large numbers of phrases. *)
Definition song_fits (b : build) (s : song) : Prop :=
  let n := len (sd_phrases (so_data s)) in
  n < 2 ^ 16 /\ match b with Debug => n <= (if so_encrypted s then 65285 else 65310) | Release => True end.

Definition u32_list_type (v : fval) : Prop := v = VNamed 0 \/ v = VNamed 1.
Definition content_ok (b : build) (c : content) : Prop :=
  match c with
  | CBeatGrid u1 u2 beats => u1 < 2 ^ 32 /\ u2 < 2 ^ 32 /\ len beats < 2 ^ 32 /\ Forall (plain_ok beat_fields) beats
  | CCueList ty u mc cues => u32_list_type ty /\ u < 2 ^ 16 /\ mc < 2 ^ 32 /\ len cues < 2 ^ 16 /\ Forall cue_ok cues
  | CExtendedCueList ty u cues => u32_list_type ty /\ u = 0 /\ len cues < 2 ^ 16 /\ Forall ecue_ok cues
  | CPath p => Forall (fun u => 0 < u < 65536) p
  | CVBR u d => u < 2 ^ 32 /\ bytes_ok d
  | CWave f => wave_ok f
  | CSong s => song_data_ok (so_data s) /\ song_fits b s
  | CUnknown hd d => bytes_ok hd /\ bytes_ok d
  end.

(** ** Agreement of a header with the content *)
Definition kind_fits (k : ckind) (c : content) : Prop :=
  match c with
  | CBeatGrid _ _ _ => k = KBeatGrid
  | CCueList _ _ _ _ => k = KCueList
  | CExtendedCueList _ _ _ => k = KExtendedCueList
  | CPath _ => k = KPath
  | CVBR _ _ => k = KVBR
  | CWave f => k = wave_kind (wf_type f)
  | CSong _ => k = KSongStructure
  | CUnknown _ _ => exists c, k = KUnknown c
  end.
(** The sizes that are compared with counts, or used as counts: the number of bytes after the header proper is
    [total - size].  Beat grids and cue lists do not use the sizes. *)
Definition counted_size (c : content) : option N :=
  match c with
  | CBeatGrid _ _ _ | CCueList _ _ _ _ | CExtendedCueList _ _ _ => None
  | CPath p => Some (2 * (len p + 1))
  | CVBR _ d => Some (len d)
  | CWave f => Some (column_size (wf_type f) * len (wf_data f))
  | CSong s => Some (24 * len (sd_phrases (so_data s)))
  | CUnknown _ d => Some (len d)
  end.
Definition sizes_fit (h : header) (c : content) : Prop :=
  match counted_size c with Some n => h_size h + n = h_total h | None => True end /\
  match c with CUnknown hd _ => h_size h = 12 + len hd | _ => True end.

Definition section_ok (b : build) (s : section) : Prop :=
  header_ok (se_header s) /\ kind_fits (h_kind (se_header s)) (se_content s) /\ content_ok b (se_content s) /\
  sizes_fit (se_header s) (se_content s).
(** The same for headers that were read: without overflow checks the sizes agree modulo 2^32 only. *)
Definition same_u32 (b : build) (x y : N) : Prop := match b with Debug => x = y | Release => x mod 2 ^ 32 = y end.
Definition sizes_agree (b : build) (h : header) (c : content) : Prop :=
  match counted_size c with Some n => same_u32 b (h_size h + n) (h_total h) | None => True end /\
  match c with CUnknown hd _ => same_u32 b (12 + len hd) (h_size h) | _ => True end.
Definition is_ecue_list (c : content) : bool := match c with CExtendedCueList _ _ _ => true | _ => false end.
