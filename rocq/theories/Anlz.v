(** * Analysis files (src/anlz.rs)

    Everything is big endian: the structs without an endianness of their own are only read and written as parts of
    [ANLZ], which is declared [big] (src/anlz.rs:1162).  Not modelled: limits of memory ([Vec] of a length that is
    taken from the file). *)
From Coq Require Import NArith ZArith List Bool Lia.
From Verif Require Import Base Utf Schema Xor.
Import ListNotations.
Open Scope N_scope.

(** Structs whose fields are integers and enums; there are no DeviceSQL strings in these files. *)
Definition rd_plain (fs : list field) : parser (list fval) := rd_fields (fail EIo) fs.
Fixpoint enc_all {A} (f : A -> res (list N)) (l : list A) : res (list N) :=
  match l with [] => Ok [] | x :: r => do! a <- f x; do! b <- enc_all f r; Ok (a ++ b) end.

(** ** Headers *)

(** src/anlz.rs:41-111. *)
Inductive ckind :=
| KFile | KBeatGrid | KCueList | KExtendedCueList | KExtendedCue | KCue | KPath | KVBR | KWaveformPreview
| KTinyWaveformPreview | KWaveformDetail | KWaveformColorPreview | KWaveformColorDetail | KWaveform3BandPreview
| KWaveform3BandDetail | KSongStructure
| KUnknown (c : N).                  (* four bytes, here as a big endian number *)
(** The magics of src/anlz.rs:43-104: "PMAI", "PQTZ", "PCOB", "PCO2", "PCP2", "PCPT", "PPTH", "PVBR", "PWAV", "PWV2",
    "PWV3", "PWV4", "PWV5", "PWV6", "PWV7", "PSSI". *)
Definition ckind_code (k : ckind) : N :=
  match k with
  | KFile => 0x504d4149 | KBeatGrid => 0x5051545a | KCueList => 0x50434f42 | KExtendedCueList => 0x50434f32
  | KExtendedCue => 0x50435032 | KCue => 0x50435054 | KPath => 0x50505448 | KVBR => 0x50564252
  | KWaveformPreview => 0x50574156 | KTinyWaveformPreview => 0x50575632 | KWaveformDetail => 0x50575633
  | KWaveformColorPreview => 0x50575634 | KWaveformColorDetail => 0x50575635 | KWaveform3BandPreview => 0x50575636
  | KWaveform3BandDetail => 0x50575637 | KSongStructure => 0x50535349
  | KUnknown c => c
  end.
Definition ckinds : list ckind :=
  [KFile; KBeatGrid; KCueList; KExtendedCueList; KExtendedCue; KCue; KPath; KVBR; KWaveformPreview;
   KTinyWaveformPreview; KWaveformDetail; KWaveformColorPreview; KWaveformColorDetail; KWaveform3BandPreview;
   KWaveform3BandDetail; KSongStructure].
(** The variants are tried in order, the last takes anything. *)
Definition ckind_of (c : N) : ckind :=
  match find (fun k => ckind_code k =? c) ckinds with Some k => k | None => KUnknown c end.
Definition rd_ckind : parser ckind := let* c <- rd_be 4; ret (ckind_of c).

(** src/anlz.rs:117-124. *)
Record header := { h_kind : ckind; h_size : N; h_total : N }.
Definition rd_header : parser header :=
  let* k <- rd_ckind; let* s <- rd_be 4; let* t <- rd_be 4; ret {| h_kind := k; h_size := s; h_total := t |}.
Definition enc_header (h : header) : list N := be_enc 4 (ckind_code (h_kind h)) ++ be_enc 4 (h_size h) ++ be_enc 4 (h_total h).
(** src/anlz.rs:127-129 and 131-133: subtractions of u32. *)
Definition remaining_size (b : build) (h : header) : res N := wsub b 32 (h_size h) 12.
Definition content_size (b : build) (h : header) : res N := wsub b 32 (h_total h) (h_size h).

(** ** Entries *)

(** src/anlz.rs:140-147. *)
Definition beat_fields : list field := [FInt BE 2; FInt BE 2; FInt BE 4].
(** src/anlz.rs:153-159 and 164-170. *)
Definition cue_list_type : field := FEnum BE 4 [0; 1].
Definition cue_type : field := FEnum BE 1 [1; 2].

(** src/anlz.rs:175-235: the header of the entry, then hot_cue, status, unknown1, order_first, order_last, cue_type,
    unknown2, unknown3, time, loop_time, unknown4 to unknown7.  The header is not checked against anything. *)
Record cue := { cue_header : header; cue_values : list fval }.
Definition cue_fields : list field :=
  [FInt BE 4; FInt BE 4; FInt BE 4; FInt BE 2; FInt BE 2; cue_type; FInt BE 1; FInt BE 2; FInt BE 4; FInt BE 4;
   FInt BE 4; FInt BE 4; FInt BE 4; FInt BE 4].
Definition rd_cue : parser cue :=
  let* h <- rd_header; let* vs <- rd_plain cue_fields; ret {| cue_header := h; cue_values := vs |}.
Definition enc_cue (b : build) (c : cue) : res (list N) :=
  do! vs <- enc_fields b cue_fields (cue_values c); Ok (enc_header (cue_header c) ++ vs).

(** [LenPrefixedWideString], a string. *)
(** src/anlz.rs:257-263: [(self.0.encode_utf16().count() as u32 + 1) * 2], or 0 for the empty string. *)
Definition byte_len (b : build) (s : list N) : res N :=
  match s with
  | [] => Ok 0
  | _ => do! n <- wadd b 32 (len (utf16_enc s) mod 2 ^ 32) 1; wmul b 32 n 2
  end.
(** [chunks_exact(2)] and [u16::from_be_bytes]: src/anlz.rs:301-304.  An odd last byte is dropped. *)
Fixpoint be_units (bs : list N) : list N :=
  match bs with hi :: lo :: r => 256 * hi + lo :: be_units r | _ => [] end.
(** [trim_end_matches('\0')]: src/anlz.rs:306. *)
Fixpoint trim_end0 (s : list N) : list N :=
  match s with
  | [] => []
  | c :: r => match trim_end0 r with [] => if c =? 0 then [] else [c] | r' => c :: r' end
  end.
(** src/anlz.rs:286-312. *)
Definition rd_comment : parser (list N) :=
  let* n <- rd_be 4;
  if n =? 0 then ret []
  else let* bs <- rd_bytes n;
       match utf16_dec (be_units bs) with Some s => ret (trim_end0 s) | None => fail ECustom end.
(** src/anlz.rs:318-335. *)
Definition enc_comment (b : build) (s : list N) : res (list N) :=
  do! n <- byte_len b s;
  Ok (be_enc 4 n ++ if 0 <? n then flat_map (be_enc 2) (utf16_enc s) ++ [0; 0] else []).

(** src/anlz.rs:342-471: the header; hot_cue, cue_type, unknown1, unknown2, time, loop_time, color, unknown3, unknown4,
    unknown5, loop_numerator, loop_denominator; the comment; hot_cue_color_index, hot_cue_color_rgb, unknown6 to
    unknown10; the rest of the entry.  The codes of [ColorIndex] are in src/util.rs:89-117. *)
Record ecue := { ec_header : header; ec_values : list fval; ec_comment : list N; ec_more : list fval; ec_trailing : list N }.
Definition ecue_fields : list field :=
  [FInt BE 4; cue_type; FInt BE 1; FInt BE 2; FInt BE 4; FInt BE 4; FEnum BE 1 [0; 1; 2; 3; 4; 5; 6; 7; 8]; FInt BE 1;
   FInt BE 2; FInt BE 4; FInt BE 2; FInt BE 2].
Definition ecue_more_fields : list field :=
  [FInt BE 1; FInt BE 1; FInt BE 1; FInt BE 1; FInt BE 4; FInt BE 4; FInt BE 4; FInt BE 4; FInt BE 4].
(** src/anlz.rs:469: [header.total_size.saturating_sub(68 + comment.byte_len())]. *)
Definition trailing_size (b : build) (h : header) (comment : list N) : res N :=
  do! n <- byte_len b comment; do! m <- wadd b 32 68 n; Ok (h_total h - m).
Definition rd_ecue (b : build) : parser ecue :=
  let* h <- rd_header; let* vs <- rd_plain ecue_fields; let* s <- rd_comment; let* ws <- rd_plain ecue_more_fields;
  let* n <- lift (trailing_size b h s); let* tr <- rd_bytes n;
  ret {| ec_header := h; ec_values := vs; ec_comment := s; ec_more := ws; ec_trailing := tr |}.
Definition enc_ecue (b : build) (c : ecue) : res (list N) :=
  do! vs <- enc_fields b ecue_fields (ec_values c); do! s <- enc_comment b (ec_comment c);
  do! ws <- enc_fields b ecue_more_fields (ec_more c);
  Ok (enc_header (ec_header c) ++ vs ++ s ++ ws ++ ec_trailing c).

(** src/anlz.rs:646-696. *)
Definition phrase_fields : list field :=
  [FInt BE 2; FInt BE 2; FInt BE 2; FInt BE 1; FInt BE 1; FInt BE 1; FInt BE 1; FInt BE 1; FInt BE 1; FInt BE 2;
   FInt BE 2; FInt BE 2; FInt BE 1; FInt BE 1; FInt BE 1; FInt BE 1; FInt BE 2].

(** ** Waveforms: seven structs of the same pattern *)
Inductive wave := WPreview | WTiny | WDetail | WColorPreview | WColorDetail | W3Preview | W3Detail.
(** The columns.  The bit fields are kept as the integers that [from_bytes] and [into_bytes] (little endian) convert:
    src/anlz.rs:487 (1 byte), 508 (1 byte), 522-535 (6 bytes), 551 (2 bytes), 572-579, 588-595 (3 bytes). *)
Definition wave_fields (w : wave) : list field :=
  match w with
  | WPreview | WTiny | WDetail => [FInt LE 1]
  | WColorPreview => [FInt BE 1; FInt BE 1; FInt BE 1; FInt BE 1; FInt BE 1; FInt BE 1]
  | WColorDetail => [FInt LE 2]
  | W3Preview | W3Detail => [FInt BE 1; FInt BE 1; FInt BE 1]
  end.
(** [len_entry_bytes]: absent at src/anlz.rs:856-883; 894-897, 922-925, 946-949, 973-976, 995-998. *)
Definition wave_entry (w : wave) : option N :=
  match w with
  | WPreview | WTiny => None
  | WDetail => Some 1 | WColorPreview => Some 6 | WColorDetail => Some 2 | W3Preview | W3Detail => Some 3
  end.
(** The field [unknown]: absent (src/anlz.rs:971-985), any value (863, 880, 932, 956), or a fixed one (904, 1005). *)
Inductive unk := UNone | UAny | UFixed (v : N).
Definition wave_unknown (w : wave) : unk :=
  match w with W3Preview => UNone | WDetail | W3Detail => UFixed 0x00960000 | _ => UAny end.
Record waveform := { wf_type : wave; wf_unknown : option N; wf_data : list (list fval) }.

(** The number of entries: src/anlz.rs:858-861, 875-878; 899-902, 927-930, 951-954, 978-981, 1000-1003. *)
Definition rd_wave_count (b : build) (h : header) (w : wave) : parser N :=
  match wave_entry w with
  | None => let* n <- rd_be 4; let* cs <- lift (content_size b h); let* _ <- guard (n =? cs) EAssertFail; ret n
  | Some e =>
    let* eb <- rd_be 4; let* _ <- guard (eb =? e) EAssertFail;
    let* n <- rd_be 4; let* m <- lift (wmul b 32 eb n); let* cs <- lift (content_size b h);
    let* _ <- guard (m =? cs) EAssertFail; ret n
  end.
Definition rd_wave_unknown (w : wave) : parser (option N) :=
  match wave_unknown w with
  | UNone => ret None
  | UAny => let* u <- rd_be 4; ret (Some u)
  | UFixed v => let* u <- rd_be 4; let* _ <- guard (u =? v) EAssertFail; ret (Some u)
  end.
Definition rd_wave (b : build) (h : header) (w : wave) : parser waveform :=
  let* n <- rd_wave_count b h w; let* u <- rd_wave_unknown w;
  let* d <- rd_count (N.to_nat n) (rd_plain (wave_fields w));
  ret {| wf_type := w; wf_unknown := u; wf_data := d |}.
(** [data.len() as u32] is written as the number of entries. *)
Definition enc_wave (b : build) (f : waveform) : res (list N) :=
  do! d <- enc_all (enc_fields b (wave_fields (wf_type f))) (wf_data f);
  Ok ((match wave_entry (wf_type f) with Some e => be_enc 4 e | None => [] end) ++ be_enc 4 (len (wf_data f) mod 2 ^ 32) ++
      (match wf_unknown f with Some u => be_enc 4 u | None => [] end) ++ d).

(** ** Song structures *)

(** src/anlz.rs:1072-1075. *)
Definition key_data : list N :=
  [0xCB; 0xE1; 0xEE; 0xFA; 0xE5; 0xEE; 0xAD; 0xEE; 0xE9; 0xD2; 0xE9; 0xEB; 0xE1; 0xE9; 0xF3; 0xE8; 0xE9; 0xF4; 0xE1].
(** src/anlz.rs:1078-1083: one byte of the key; the u16 addition can overflow. *)
Definition key_byte (b : build) (n x : N) : res N := do! v <- wadd b 16 x n; Ok (v mod 256).
Fixpoint all_ok {A} (l : list (res A)) : res (list A) :=
  match l with [] => Ok [] | r :: l' => do! a <- r; do! m <- all_ok l'; Ok (a :: m) end.
(** [get_key(len_entries).take(k)]: the iterator is lazy, so only these bytes are computed. *)
Definition get_key (b : build) (n k : N) : res (list N) := all_ok (map (key_byte b n) (takeN k key_data)).

(** src/anlz.rs:601-610 and 620-638. *)
Definition mood : field := FEnum BE 2 [1; 2; 3].
Definition bank : field := FEnum BE 1 [0; 1; 2; 3; 4; 5; 6; 7; 8].
(** src/anlz.rs:1088-1096. *)
Definition check_if_encrypted (b : build) (raw_mood : list N) (n : N) : res bool :=
  do! key <- get_key b n 2;
  let buffer := map (fun p => N.lxor (fst p) (snd p)) (combine raw_mood key) in
  match rd_plain [mood] buffer 0 with Ok _ => Ok true | Err _ => Ok false | Panic => Panic end.

(** src/anlz.rs:1051-1069: mood, unknown1, unknown2, end_beat, unknown3, bank, unknown4; phrases. *)
Record song_data := { sd_values : list fval; sd_phrases : list (list fval) }.
Definition song_fields : list field := [mood; FInt BE 4; FInt BE 2; FInt BE 2; FInt BE 2; bank; FInt BE 1].
Definition rd_song_data (n : N) : parser song_data :=
  let* vs <- rd_plain song_fields; let* ps <- rd_count (N.to_nat n) (rd_plain phrase_fields);
  ret {| sd_values := vs; sd_phrases := ps |}.
Definition enc_song_data (b : build) (d : song_data) : res (list N) :=
  do! vs <- enc_fields b song_fields (sd_values d); do! ps <- enc_all (enc_fields b phrase_fields) (sd_phrases d); Ok (vs ++ ps).

(** src/anlz.rs:1100-1112: reading through an [XorStream] that is created at the current position.  By the theorems of
    C43 that is reading from the contents that the stream shows; the reads of [SongStructureData] are all complete
    reads and queries of the position. *)
Definition rd_encrypted (b : build) (enc : bool) (n : N) : parser song_data :=
  if enc then let* key <- lift (get_key b n 19); fun buf pos => rd_song_data n (xor_view key pos buf) pos
  else rd_song_data n.
(** src/anlz.rs:1116-1129. *)
Definition enc_encrypted (b : build) (enc : bool) (n : N) (d : song_data) : res (list N) :=
  if enc then do! key <- get_key b n 19; do! bs <- enc_song_data b d; Ok (xor_cycle key 0 bs)
  else enc_song_data b d.

(** src/anlz.rs:1021-1042; the flag is found by a look at the next two bytes ([restore_position]). *)
Record song := { so_encrypted : bool; so_data : song_data }.
Definition rd_song (b : build) (h : header) : parser song :=
  let* eb <- rd_be 4; let* _ <- guard (eb =? 24) EAssertFail;
  let* n <- rd_be 2; let* m <- lift (wmul b 32 eb n); let* cs <- lift (content_size b h);
  let* _ <- guard (m =? cs) EAssertFail;
  let* p <- tell; let* raw <- rd_bytes 2; let* _ <- seek_to p;
  let* e <- lift (check_if_encrypted b raw n);
  let* d <- rd_encrypted b e n;
  ret {| so_encrypted := e; so_data := d |}.
(** [data.phrases.len() as u16] is written as the number of entries and used for the key. *)
Definition enc_song (b : build) (s : song) : res (list N) :=
  let n := len (sd_phrases (so_data s)) mod 2 ^ 16 in
  do! d <- enc_encrypted b (so_encrypted s) n (so_data s); Ok (be_enc 4 24 ++ be_enc 2 n ++ d).

(** ** Sections *)

(** src/anlz.rs:702-763, with the structs 768-850, 1136-1143. *)
Inductive content :=
| CBeatGrid (u1 u2 : N) (beats : list (list fval))
| CCueList (ty : fval) (unknown memory_count : N) (cues : list cue)
| CExtendedCueList (ty : fval) (unknown : N) (cues : list ecue)
| CPath (path : list N)                                            (* UTF-16 units *)
| CVBR (u1 : N) (data : list N)
| CWave (f : waveform)
| CSong (s : song)
| CUnknown (header_data content_data : list N).

(** binrw [NullWideString]: units up to a zero unit. *)
Definition rd_nullwide : parser (list N) := fun buf pos => rd_until0 (S (length buf)) (rd_be 2) buf pos.
(** [(path.len() as u32 + 1) * 2]: src/anlz.rs:832, 836. *)
Definition path_size (b : build) (path : list N) : res N := do! n <- wadd b 32 (len path mod 2 ^ 32) 1; wmul b 32 n 2.

Definition rd_beat_grid : parser content :=
  let* u1 <- rd_be 4; let* u2 <- rd_be 4; let* n <- rd_be 4;
  let* bs <- rd_count (N.to_nat n) (rd_plain beat_fields); ret (CBeatGrid u1 u2 bs).
Definition rd_cue_list : parser content :=
  let* ty <- rd_field (fail EIo) cue_list_type; let* u <- rd_be 2; let* n <- rd_be 2; let* mc <- rd_be 4;
  let* cs <- rd_count (N.to_nat n) rd_cue; ret (CCueList ty u mc cs).
Definition rd_ecue_list (b : build) : parser content :=
  let* ty <- rd_field (fail EIo) cue_list_type; let* n <- rd_be 2; let* u <- rd_be 2;
  let* _ <- guard (u =? 0) EAssertFail;
  let* cs <- rd_count (N.to_nat n) (rd_ecue b); ret (CExtendedCueList ty u cs).
Definition rd_path (b : build) (h : header) : parser content :=
  let* n <- rd_be 4; let* cs <- lift (content_size b h); let* _ <- guard (n =? cs) EAssertFail;
  let* p <- rd_nullwide; let* cs2 <- lift (content_size b h); let* _ <- guard (n =? cs2) EAssertFail;
  let* m <- lift (path_size b p); let* _ <- guard (m =? n) EAssertFail; ret (CPath p).
Definition rd_vbr (b : build) (h : header) : parser content :=
  let* u <- rd_be 4; let* n <- lift (content_size b h); let* d <- rd_bytes n; ret (CVBR u d).
Definition rd_unknown (b : build) (h : header) : parser content :=
  let* n <- lift (remaining_size b h); let* hd <- rd_bytes n;
  let* m <- lift (content_size b h); let* d <- rd_bytes m; ret (CUnknown hd d).

(** The variant whose [pre_assert] holds for the kind; the other variants fail.  Some kinds have no variant. *)
Definition rd_content (b : build) (h : header) : parser content :=
  let wave w := let* f <- rd_wave b h w; ret (CWave f) in
  match h_kind h with
  | KBeatGrid => rd_beat_grid
  | KCueList => rd_cue_list
  | KExtendedCueList => rd_ecue_list b
  | KPath => rd_path b h
  | KVBR => rd_vbr b h
  | KWaveformPreview => wave WPreview
  | KTinyWaveformPreview => wave WTiny
  | KWaveformDetail => wave WDetail
  | KWaveformColorPreview => wave WColorPreview
  | KWaveformColorDetail => wave WColorDetail
  | KWaveform3BandPreview => wave W3Preview
  | KWaveform3BandDetail => wave W3Detail
  | KSongStructure => let* s <- rd_song b h; ret (CSong s)
  | KUnknown _ => rd_unknown b h
  | KFile | KExtendedCue | KCue => fail ENoVariant
  end.
(** The numbers of entries are written as [len() as u32] (src/anlz.rs:777) or [len() as u16] (794, 814). *)
Definition enc_content (b : build) (c : content) : res (list N) :=
  match c with
  | CBeatGrid u1 u2 beats =>
    do! bs <- enc_all (enc_fields b beat_fields) beats;
    Ok (be_enc 4 u1 ++ be_enc 4 u2 ++ be_enc 4 (len beats mod 2 ^ 32) ++ bs)
  | CCueList ty u mc cues =>
    do! t <- enc_field b cue_list_type ty; do! cs <- enc_all (enc_cue b) cues;
    Ok (t ++ be_enc 2 u ++ be_enc 2 (len cues mod 2 ^ 16) ++ be_enc 4 mc ++ cs)
  | CExtendedCueList ty u cues =>
    do! t <- enc_field b cue_list_type ty; do! cs <- enc_all (enc_ecue b) cues;
    Ok (t ++ be_enc 2 (len cues mod 2 ^ 16) ++ be_enc 2 u ++ cs)
  | CPath p => do! n <- path_size b p; Ok (be_enc 4 n ++ flat_map (be_enc 2) p ++ [0; 0])
  | CVBR u d => Ok (be_enc 4 u ++ d)
  | CWave f => enc_wave b f
  | CSong s => enc_song b s
  | CUnknown hd d => Ok (hd ++ d)
  end.

(** src/anlz.rs:1149-1155. *)
Record section := { se_header : header; se_content : content }.
Definition rd_section (b : build) : parser section :=
  let* h <- rd_header; let* c <- rd_content b h; ret {| se_header := h; se_content := c |}.
Definition enc_section (b : build) (s : section) : res (list N) :=
  do! c <- enc_content b (se_content s); Ok (enc_header (se_header s) ++ c).

(** The loop of src/anlz.rs:1184-1189, with a bound on the number of rounds; [None]: the bound was too small. *)
Fixpoint sections_loop (fuel : nat) (b : build) (final : N) (buf : list N) (pos : N) : option (res (list section * N)) :=
  match fuel with
  | O => None
  | S f =>
    if pos <? final then
      match rd_section b buf pos with
      | Ok (s, pos') =>
        match sections_loop f b final buf pos' with
        | Some (Ok (r, p)) => Some (Ok (s :: r, p))
        | o => o
        end
      | Err e => Some (Err e)
      | Panic => Some Panic
      end
    else Some (Ok ([], pos))
  end.
(** src/anlz.rs:1176-1193.  The bound is never reached: theorem [c35_ends]. *)
Definition parse_sections (b : build) (n : N) : parser (list section) :=
  fun buf pos =>
    match wadd b 64 pos n with
    | Ok final => match sections_loop (S (length buf)) b final buf pos with Some r => r | None => Panic end
    | Err e => Err e
    | Panic => Panic
    end.

(** src/anlz.rs:1163-1173. *)
Record anlz := { an_header : header; an_header_data : list N; an_sections : list section }.
Definition is_file (k : ckind) : bool := match k with KFile => true | _ => false end.
Definition rd_anlz (b : build) : parser anlz :=
  let* h <- rd_header; let* _ <- guard (is_file (h_kind h)) EAssertFail;
  let* n <- lift (remaining_size b h); let* hd <- rd_bytes n;
  let* m <- lift (content_size b h); let* ss <- parse_sections b m;
  ret {| an_header := h; an_header_data := hd; an_sections := ss |}.
Definition enc_anlz (b : build) (a : anlz) : res (list N) :=
  do! ss <- enc_all (enc_section b) (an_sections a); Ok (enc_header (an_header a) ++ an_header_data a ++ ss).
