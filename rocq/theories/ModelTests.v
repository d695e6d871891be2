(** * Tests of the model: the unit tests of the crate, src/pdb/test_roundtrip.rs (headers and rows) and src/pdb/test_modification.rs

    These are tests, not proofs: they check on the literals of the crate's own tests that the model reads and writes what the code does.
    The terms were translated from the Rust sources by a script. *)
From Coq Require Import NArith List Bool String.
From Verif Require Import Base Utf Str Schema Oa Rows Page Db Alloc Device Cli Anlz.
Import ListNotations.
Local Close Scope string_scope.
Open Scope N_scope.

Definition str (s : list N) : dstr := match dstr_new s with inl d => d | inr _ => DSShort [] end.
Definition isrc (s : list N) : dstr := match dstr_new_isrc s with inl d => d | inr _ => DSShort [] end.
Definition entry (i fl : N) : N := match index_entry_new i fl with Some e => e | None => 0 end.
(** Equality of row groups is that of the code: slots that are not present do not count (C22). *)
Definition group_key (g : rgroup) : list N * N * N := (present_offsets g, rg_flags g, rg_unknown g).
Definition page_key (p : page) : phdr * (list fval * list (list N * N * N) * list (N * row) + icontent) :=
  (pg_header p, match pg_content p with PData c => inl (dc_header c, map group_key (dc_groups c), dc_rows c) | PIndex c => inr c end).

(** test_roundtrip.rs:15 *)
Example t_empty_header : let h := (mk_dbhdr 4096 0 1 0 1 []) in let bs := [0; 0; 0; 0; 0; 16; 0; 0; 0; 0; 0; 0; 1; 0; 0; 0; 0; 0; 0; 0; 1; 0; 0; 0; 0; 0; 0; 0] in
  rd_dbhdr DbPlain bs 0 = Ok (h, 28) /\ dbhdr_enc h = bs.
Proof. vm_compute. now split. Qed.

(** test_roundtrip.rs:33 *)
Example t_demo_tracks_header : let h := (mk_dbhdr 4096 20 51 5 34 [mk_table (PT KTrack) 47 1 2; mk_table (PT KGenre) 4 3 3; mk_table (PT KArtist) 49 5 6; mk_table (PT KAlbum) 8 7 7; mk_table (PT KLabel) 50 9 10; mk_table (PT KKey) 46 11 12; mk_table (PT KColor) 42 13 14; mk_table (PT KPlaylistTreeNode) 16 15 15; mk_table (PT KPlaylistEntry) 18 17 17; mk_table (PTUnknown 9) 20 19 19; mk_table (PTUnknown 10) 22 21 21; mk_table (PT KHistoryPlaylist) 24 23 23; mk_table (PT KHistoryEntry) 26 25 25; mk_table (PT KArtwork) 28 27 27; mk_table (PTUnknown 14) 30 29 29; mk_table (PTUnknown 15) 32 31 31; mk_table (PT KColumnEntry) 43 33 34; mk_table (PT KMenu) 44 35 36; mk_table (PTUnknown 18) 45 37 38; mk_table (PT KHistory) 48 39 41]) in let bs := [0; 0; 0; 0; 0; 16; 0; 0; 20; 0; 0; 0; 51; 0; 0; 0; 5; 0; 0; 0; 34; 0; 0; 0; 0; 0; 0; 0; 0; 0; 0; 0; 47; 0; 0; 0; 1; 0; 0; 0; 2; 0; 0; 0; 1; 0; 0; 0; 4; 0; 0; 0; 3; 0; 0; 0; 3; 0; 0; 0; 2; 0; 0; 0; 49; 0; 0; 0; 5; 0; 0; 0; 6; 0; 0; 0; 3; 0; 0; 0; 8; 0; 0; 0; 7; 0; 0; 0; 7; 0; 0; 0; 4; 0; 0; 0; 50; 0; 0; 0; 9; 0; 0; 0; 10; 0; 0; 0; 5; 0; 0; 0; 46; 0; 0; 0; 11; 0; 0; 0; 12; 0; 0; 0; 6; 0; 0; 0; 42; 0; 0; 0; 13; 0; 0; 0; 14; 0; 0; 0; 7; 0; 0; 0; 16; 0; 0; 0; 15; 0; 0; 0; 15; 0; 0; 0; 8; 0; 0; 0; 18; 0; 0; 0; 17; 0; 0; 0; 17; 0; 0; 0; 9; 0; 0; 0; 20; 0; 0; 0; 19; 0; 0; 0; 19; 0; 0; 0; 10; 0; 0; 0; 22; 0; 0; 0; 21; 0; 0; 0; 21; 0; 0; 0; 11; 0; 0; 0; 24; 0; 0; 0; 23; 0; 0; 0; 23; 0; 0; 0; 12; 0; 0; 0; 26; 0; 0; 0; 25; 0; 0; 0; 25; 0; 0; 0; 13; 0; 0; 0; 28; 0; 0; 0; 27; 0; 0; 0; 27; 0; 0; 0; 14; 0; 0; 0; 30; 0; 0; 0; 29; 0; 0; 0; 29; 0; 0; 0; 15; 0; 0; 0; 32; 0; 0; 0; 31; 0; 0; 0; 31; 0; 0; 0; 16; 0; 0; 0; 43; 0; 0; 0; 33; 0; 0; 0; 34; 0; 0; 0; 17; 0; 0; 0; 44; 0; 0; 0; 35; 0; 0; 0; 36; 0; 0; 0; 18; 0; 0; 0; 45; 0; 0; 0; 37; 0; 0; 0; 38; 0; 0; 0; 19; 0; 0; 0; 48; 0; 0; 0; 39; 0; 0; 0; 41; 0; 0; 0] in
  rd_dbhdr DbPlain bs 0 = Ok (h, 348) /\ dbhdr_enc h = bs.
Proof. vm_compute. now split. Qed.

(** test_roundtrip.rs:186 *)
Example t_track_row : let r := (RRow KTrack [VInt 36; VInt 0; VInt 788224; VInt 44100; VInt 0; VInt 6899624; VInt 214020570; VInt 64128; VInt 1511; VInt 0; VInt 5; VInt 0; VInt 1; VInt 0; VInt 320; VInt 0; VInt 12800; VInt 0; VInt 0; VInt 1; VInt 1; VInt 0; VInt 0; VInt 0; VInt 16; VInt 172; VInt 41; VNamed 0; VInt 0; VNamed 1] (Some (mk_oarr (Some (mk_offs OS16 [136; 137; 138; 140; 142; 143; 144; 145; 148; 149; 150; 161; 162; 163; 164; 208; 219; 249; 262; 263; 280])) [(isrc (bytes_of "")); dstr_empty; (str (bytes_of "3")); (str (bytes_of "3")); dstr_empty; dstr_empty; dstr_empty; (str (bytes_of "ON")); dstr_empty; dstr_empty; (str (bytes_of "2018-05-25")); dstr_empty; dstr_empty; dstr_empty; (str (bytes_of "/PIONEER/USBANLZ/P016/0000875E/ANLZ0000.DAT")); (str (bytes_of "2022-02-02")); (str (bytes_of "Tracks by www.loopmasters.com")); (str (bytes_of "Demo Track 1")); dstr_empty; (str (bytes_of "Demo Track 1.mp3")); (str (bytes_of "/Contents/Loopmasters/UnknownAlbum/Demo Track 1.mp3"))]))) in let bs := [36; 0; 0; 0; 0; 7; 12; 0; 68; 172; 0; 0; 0; 0; 0; 0; 168; 71; 105; 0; 218; 177; 193; 12; 128; 250; 231; 5; 0; 0; 0; 0; 5; 0; 0; 0; 0; 0; 0; 0; 1; 0; 0; 0; 0; 0; 0; 0; 64; 1; 0; 0; 0; 0; 0; 0; 0; 50; 0; 0; 0; 0; 0; 0; 0; 0; 0; 0; 1; 0; 0; 0; 1; 0; 0; 0; 0; 0; 0; 0; 0; 0; 16; 0; 172; 0; 41; 0; 0; 0; 1; 0; 3; 0; 136; 0; 137; 0; 138; 0; 140; 0; 142; 0; 143; 0; 144; 0; 145; 0; 148; 0; 149; 0; 150; 0; 161; 0; 162; 0; 163; 0; 164; 0; 208; 0; 219; 0; 249; 0; 6; 1; 7; 1; 24; 1; 3; 3; 5; 51; 5; 51; 3; 3; 3; 7; 79; 78; 3; 3; 23; 50; 48; 49; 56; 45; 48; 53; 45; 50; 53; 3; 3; 3; 89; 47; 80; 73; 79; 78; 69; 69; 82; 47; 85; 83; 66; 65; 78; 76; 90; 47; 80; 48; 49; 54; 47; 48; 48; 48; 48; 56; 55; 53; 69; 47; 65; 78; 76; 90; 48; 48; 48; 48; 46; 68; 65; 84; 23; 50; 48; 50; 50; 45; 48; 50; 45; 48; 50; 61; 84; 114; 97; 99; 107; 115; 32; 98; 121; 32; 119; 119; 119; 46; 108; 111; 111; 112; 109; 97; 115; 116; 101; 114; 115; 46; 99; 111; 109; 27; 68; 101; 109; 111; 32; 84; 114; 97; 99; 107; 32; 49; 3; 35; 68; 101; 109; 111; 32; 84; 114; 97; 99; 107; 32; 49; 46; 109; 112; 51; 105; 47; 67; 111; 110; 116; 101; 110; 116; 115; 47; 76; 111; 111; 112; 109; 97; 115; 116; 101; 114; 115; 47; 85; 110; 107; 110; 111; 119; 110; 65; 108; 98; 117; 109; 47; 68; 101; 109; 111; 32; 84; 114; 97; 99; 107; 32; 49; 46; 109; 112; 51] in
  (exists q, rd_row (rd_dstr Debug) (PT KTrack) bs 0 = Ok (r, q)) /\ exists q, row_write Debug r ([], 0) = Ok (bs, q).
Proof. split; eexists; vm_compute; reflexivity. Qed.

(** test_roundtrip.rs:279 *)
Example t_artist_row : let r := (RRow KArtist [VInt 96; VInt 0; VInt 1] (Some (mk_oarr (Some (mk_offs OS8 [10])) [(str (bytes_of "Loopmasters"))]))) in let bs := [96; 0; 0; 0; 1; 0; 0; 0; 3; 10; 25; 76; 111; 111; 112; 109; 97; 115; 116; 101; 114; 115] in
  (exists q, rd_row (rd_dstr Debug) (PT KArtist) bs 0 = Ok (r, q)) /\ exists q, row_write Debug r ([], 0) = Ok (bs, q).
Proof. split; eexists; vm_compute; reflexivity. Qed.

(** test_roundtrip.rs:300 *)
Example t_album_row : let r := (RRow KAlbum [VInt 128; VInt 0; VInt 0; VInt 2; VInt 2; VInt 0] (Some (mk_oarr (Some (mk_offs OS8 [22])) [(str (bytes_of "GOOD LUCK"))]))) in let bs := [128; 0; 0; 0; 0; 0; 0; 0; 2; 0; 0; 0; 2; 0; 0; 0; 0; 0; 0; 0; 3; 22; 21; 71; 79; 79; 68; 32; 76; 85; 67; 75] in
  (exists q, rd_row (rd_dstr Debug) (PT KAlbum) bs 0 = Ok (r, q)) /\ exists q, row_write Debug r ([], 0) = Ok (bs, q).
Proof. split; eexists; vm_compute; reflexivity. Qed.

(** test_roundtrip.rs:300 *)
Example t_album_row2 : let r := (RRow KAlbum [VInt 128; VInt 0; VInt 0; VInt 0; VInt 3; VInt 0] (Some (mk_oarr (Some (mk_offs OS8 [22])) [(str (bytes_of "Techno Rave 2023"))]))) in let bs := [128; 0; 0; 0; 0; 0; 0; 0; 0; 0; 0; 0; 3; 0; 0; 0; 0; 0; 0; 0; 3; 22; 35; 84; 101; 99; 104; 110; 111; 32; 82; 97; 118; 101; 32; 50; 48; 50; 51] in
  (exists q, rd_row (rd_dstr Debug) (PT KAlbum) bs 0 = Ok (r, q)) /\ exists q, row_write Debug r ([], 0) = Ok (bs, q).
Proof. split; eexists; vm_compute; reflexivity. Qed.

(** test_roundtrip.rs:350 *)
Example t_label_row : let r := (RRow KLabel [VInt 1; VStr (str (bytes_of "Loopmasters"))] None) in let bs := [1; 0; 0; 0; 25; 76; 111; 111; 112; 109; 97; 115; 116; 101; 114; 115] in
  (exists q, rd_row (rd_dstr Debug) (PT KLabel) bs 0 = Ok (r, q)) /\ exists q, row_write Debug r ([], 0) = Ok (bs, q).
Proof. split; eexists; vm_compute; reflexivity. Qed.

(** test_roundtrip.rs:364 *)
Example t_key_row : let r := (RRow KKey [VInt 1; VInt 1; VStr (str (bytes_of "Dm"))] None) in let bs := [1; 0; 0; 0; 1; 0; 0; 0; 7; 68; 109] in
  (exists q, rd_row (rd_dstr Debug) (PT KKey) bs 0 = Ok (r, q)) /\ exists q, row_write Debug r ([], 0) = Ok (bs, q).
Proof. split; eexists; vm_compute; reflexivity. Qed.

(** test_roundtrip.rs:374 *)
Example t_color_row : let r := (RRow KColor [VInt 0; VInt 1; VNamed 1; VInt 0; VStr (str (bytes_of "Pink"))] None) in let bs := [0; 0; 0; 0; 1; 1; 0; 0; 11; 80; 105; 110; 107] in
  (exists q, rd_row (rd_dstr Debug) (PT KColor) bs 0 = Ok (r, q)) /\ exists q, row_write Debug r ([], 0) = Ok (bs, q).
Proof. split; eexists; vm_compute; reflexivity. Qed.

(** test_roundtrip.rs:386 *)
Example t_playlist_tree_row : let r := (RRow KPlaylistTreeNode [VInt 0; VInt 0; VInt 0; VInt 1; VInt 1; VStr (str (bytes_of "current set 2021 reduced"))] None) in let bs := [0; 0; 0; 0; 0; 0; 0; 0; 0; 0; 0; 0; 1; 0; 0; 0; 1; 0; 0; 0; 51; 99; 117; 114; 114; 101; 110; 116; 32; 115; 101; 116; 32; 50; 48; 50; 49; 32; 114; 101; 100; 117; 99; 101; 100] in
  (exists q, rd_row (rd_dstr Debug) (PT KPlaylistTreeNode) bs 0 = Ok (r, q)) /\ exists q, row_write Debug r ([], 0) = Ok (bs, q).
Proof. split; eexists; vm_compute; reflexivity. Qed.

(** test_roundtrip.rs:407 *)
Example t_playlist_entry_row : let r := (RRow KPlaylistEntry [VInt 1; VInt 1; VInt 6] None) in let bs := [1; 0; 0; 0; 1; 0; 0; 0; 6; 0; 0; 0] in
  (exists q, rd_row (rd_dstr Debug) (PT KPlaylistEntry) bs 0 = Ok (r, q)) /\ exists q, row_write Debug r ([], 0) = Ok (bs, q).
Proof. split; eexists; vm_compute; reflexivity. Qed.

(** test_roundtrip.rs:418 *)
Example t_column_entry : let r := (RRow KColumnEntry [VInt 1; VInt 128; VStr (str [65530; 71; 69; 78; 82; 69; 65531])] None) in let bs := [1; 0; 128; 0; 144; 18; 0; 0; 250; 255; 71; 0; 69; 0; 78; 0; 82; 0; 69; 0; 251; 255] in
  (exists q, rd_row (rd_dstr Debug) (PT KColumnEntry) bs 0 = Ok (r, q)) /\ exists q, row_write Debug r ([], 0) = Ok (bs, q).
Proof. split; eexists; vm_compute; reflexivity. Qed.

(** test_roundtrip.rs:432 *)
Example t_menu_row : let r := (RRow KMenu [VInt 2; VInt 2; VInt 2; VNamed 0; VInt 1] None) in let bs := [2; 0; 2; 0; 2; 0; 1; 0] in
  (exists q, rd_row (rd_dstr Debug) (PT KMenu) bs 0 = Ok (r, q)) /\ exists q, row_write Debug r ([], 0) = Ok (bs, q).
Proof. split; eexists; vm_compute; reflexivity. Qed.

(** test_roundtrip.rs:445 *)
Example t_history_row : let r := (RRow KHistory [VInt 640; VInt 128; VInt 5; VUnit; VStr (str (bytes_of "2022-02-02")); VUnit; VStr (str (bytes_of "1000")); VStr (str (bytes_of ""))] None) in let bs := [128; 2; 128; 0; 5; 0; 0; 0; 0; 0; 0; 0; 23; 50; 48; 50; 50; 45; 48; 50; 45; 48; 50; 25; 30; 11; 49; 48; 48; 48; 3] in
  (exists q, rd_row (rd_dstr Debug) (PT KHistory) bs 0 = Ok (r, q)) /\ exists q, row_write Debug r ([], 0) = Ok (bs, q).
Proof. split; eexists; vm_compute; reflexivity. Qed.

(** test_roundtrip.rs:466 *)
Example t_history_row_with_label : let r := (RRow KHistory [VInt 640; VInt 448; VInt 12; VUnit; VStr (str (bytes_of "2024-04-18")); VUnit; VStr (str (bytes_of "1000")); VStr (str (bytes_of "ZAKS BACKUP"))] None) in let bs := [128; 2; 192; 1; 12; 0; 0; 0; 0; 0; 0; 0; 23; 50; 48; 50; 52; 45; 48; 52; 45; 49; 56; 25; 30; 11; 49; 48; 48; 48; 25; 90; 65; 75; 83; 32; 66; 65; 67; 75; 85; 80] in
  (exists q, rd_row (rd_dstr Debug) (PT KHistory) bs 0 = Ok (r, q)) /\ exists q, row_write Debug r ([], 0) = Ok (bs, q).
Proof. split; eexists; vm_compute; reflexivity. Qed.

(** test_modification.rs:11 *)
Example t_allocate_row_empty_page : let p := (mk_page (mk_phdr 12 (PT KKey) 51 13484 0 (mk_counts 0 0) 36 3000 0) (PData (mk_dcontent [VInt 0; VInt 0; VInt 0; VInt 0] [] [
  ]))) in let e := (mk_page (mk_phdr 12 (PT KKey) 51 13484 0 (mk_counts 1 1) 36 2978 16) (PData (mk_dcontent [VInt 0; VInt 0; VInt 0; VInt 0] [mk_rgroup [0; 0; 0; 0; 0; 0; 0; 0; 0; 0; 0; 0; 0; 0; 0; 0] 1 0] [
  (0, (RRow KKey [VInt 1; VInt 1; VStr (str (bytes_of "Emin"))] None))]))) in
  match row_heap Debug (RRow KKey [VInt 1; VInt 1; VStr (str (bytes_of "Emin"))] None) with Ok n => match step Debug n (Some (RRow KKey [VInt 1; VInt 1; VStr (str (bytes_of "Emin"))] None)) p with Ok q => page_key q = page_key e | _ => False end | _ => False end.
Proof. vm_compute. reflexivity. Qed.

(** test_modification.rs:105 *)
Example t_allocate_row_existing_row_group : let p := (mk_page (mk_phdr 12 (PT KKey) 51 13484 0 (mk_counts 1 1) 36 2978 16) (PData (mk_dcontent [VInt 0; VInt 0; VInt 0; VInt 0] [mk_rgroup [0; 0; 0; 0; 0; 0; 0; 0; 0; 0; 0; 0; 0; 0; 0; 0] 1 0] [
  (0, (RRow KKey [VInt 1; VInt 1; VStr (str (bytes_of "Emin"))] None))]))) in let e := (mk_page (mk_phdr 12 (PT KKey) 51 13484 0 (mk_counts 2 2) 36 2960 32) (PData (mk_dcontent [VInt 0; VInt 0; VInt 0; VInt 0] [mk_rgroup [0; 0; 0; 0; 0; 0; 0; 0; 0; 0; 0; 0; 0; 0; 16; 0] 3 0] [
  (0, (RRow KKey [VInt 1; VInt 1; VStr (str (bytes_of "Emin"))] None));
  (16, (RRow KKey [VInt 2; VInt 2; VStr (str (bytes_of "Fmaj"))] None))]))) in
  match row_heap Debug (RRow KKey [VInt 2; VInt 2; VStr (str (bytes_of "Fmaj"))] None) with Ok n => match step Debug n (Some (RRow KKey [VInt 2; VInt 2; VStr (str (bytes_of "Fmaj"))] None)) p with Ok q => page_key q = page_key e | _ => False end | _ => False end.
Proof. vm_compute. reflexivity. Qed.

(** test_modification.rs:223 *)
Example t_allocate_row_interrupted : let p := (mk_page (mk_phdr 12 (PT KKey) 51 13484 0 (mk_counts 1 1) 36 2978 16) (PData (mk_dcontent [VInt 0; VInt 0; VInt 0; VInt 0] [mk_rgroup [0; 0; 0; 0; 0; 0; 0; 0; 0; 0; 0; 0; 0; 0; 0; 0] 1 0] [
  (0, (RRow KKey [VInt 1; VInt 1; VStr (str (bytes_of "Emin"))] None))]))) in let e := (mk_page (mk_phdr 12 (PT KKey) 51 13484 0 (mk_counts 2 1) 36 2960 32) (PData (mk_dcontent [VInt 0; VInt 0; VInt 0; VInt 0] [mk_rgroup [0; 0; 0; 0; 0; 0; 0; 0; 0; 0; 0; 0; 0; 0; 16; 0] 1 0] [
  (0, (RRow KKey [VInt 1; VInt 1; VStr (str (bytes_of "Emin"))] None))]))) in
  match Ok 16 with Ok n => match step Debug n None p with Ok q => page_key q = page_key e | _ => False end | _ => False end.
Proof. vm_compute. reflexivity. Qed.

(** test_modification.rs:330 *)
Example t_allocate_row_full_row_group : let p := (mk_page (mk_phdr 12 (PT KKey) 51 13484 0 (mk_counts 16 16) 36 2000 236) (PData (mk_dcontent [VInt 0; VInt 0; VInt 0; VInt 0] [mk_rgroup [220; 204; 192; 180; 168; 152; 136; 120; 104; 88; 72; 60; 44; 32; 16; 0] 65535 0] [
  (0, (RRow KKey [VInt 1; VInt 1; VStr (str (bytes_of "Emin"))] None));
  (16, (RRow KKey [VInt 2; VInt 2; VStr (str (bytes_of "Fmaj"))] None));
  (32, (RRow KKey [VInt 3; VInt 3; VStr (str (bytes_of "E"))] None));
  (44, (RRow KKey [VInt 4; VInt 4; VStr (str (bytes_of "Amin"))] None));
  (60, (RRow KKey [VInt 5; VInt 5; VStr (str (bytes_of "2d"))] None));
  (72, (RRow KKey [VInt 6; VInt 6; VStr (str (bytes_of "Bmin"))] None));
  (88, (RRow KKey [VInt 7; VInt 7; VStr (str (bytes_of "Cmin"))] None));
  (104, (RRow KKey [VInt 8; VInt 8; VStr (str (bytes_of "Cmaj"))] None));
  (120, (RRow KKey [VInt 9; VInt 9; VStr (str (bytes_of "Abmin"))] None));
  (136, (RRow KKey [VInt 10; VInt 10; VStr (str (bytes_of "Dmin"))] None));
  (152, (RRow KKey [VInt 11; VInt 11; VStr (str (bytes_of "Gmin"))] None));
  (168, (RRow KKey [VInt 12; VInt 12; VStr (str (bytes_of "Dm"))] None));
  (180, (RRow KKey [VInt 13; VInt 13; VStr (str (bytes_of "Am"))] None));
  (192, (RRow KKey [VInt 14; VInt 14; VStr (str (bytes_of "A#"))] None));
  (204, (RRow KKey [VInt 15; VInt 15; VStr (str (bytes_of "G#min"))] None));
  (220, (RRow KKey [VInt 16; VInt 16; VStr (str (bytes_of "A#min"))] None))]))) in let e := (mk_page (mk_phdr 12 (PT KKey) 51 13484 0 (mk_counts 17 17) 36 1978 252) (PData (mk_dcontent [VInt 0; VInt 0; VInt 0; VInt 0] [mk_rgroup [220; 204; 192; 180; 168; 152; 136; 120; 104; 88; 72; 60; 44; 32; 16; 0] 65535 0; mk_rgroup [0; 0; 0; 0; 0; 0; 0; 0; 0; 0; 0; 0; 0; 0; 0; 236] 1 0] [
  (0, (RRow KKey [VInt 1; VInt 1; VStr (str (bytes_of "Emin"))] None));
  (16, (RRow KKey [VInt 2; VInt 2; VStr (str (bytes_of "Fmaj"))] None));
  (32, (RRow KKey [VInt 3; VInt 3; VStr (str (bytes_of "E"))] None));
  (44, (RRow KKey [VInt 4; VInt 4; VStr (str (bytes_of "Amin"))] None));
  (60, (RRow KKey [VInt 5; VInt 5; VStr (str (bytes_of "2d"))] None));
  (72, (RRow KKey [VInt 6; VInt 6; VStr (str (bytes_of "Bmin"))] None));
  (88, (RRow KKey [VInt 7; VInt 7; VStr (str (bytes_of "Cmin"))] None));
  (104, (RRow KKey [VInt 8; VInt 8; VStr (str (bytes_of "Cmaj"))] None));
  (120, (RRow KKey [VInt 9; VInt 9; VStr (str (bytes_of "Abmin"))] None));
  (136, (RRow KKey [VInt 10; VInt 10; VStr (str (bytes_of "Dmin"))] None));
  (152, (RRow KKey [VInt 11; VInt 11; VStr (str (bytes_of "Gmin"))] None));
  (168, (RRow KKey [VInt 12; VInt 12; VStr (str (bytes_of "Dm"))] None));
  (180, (RRow KKey [VInt 13; VInt 13; VStr (str (bytes_of "Am"))] None));
  (192, (RRow KKey [VInt 14; VInt 14; VStr (str (bytes_of "A#"))] None));
  (204, (RRow KKey [VInt 15; VInt 15; VStr (str (bytes_of "G#min"))] None));
  (220, (RRow KKey [VInt 16; VInt 16; VStr (str (bytes_of "A#min"))] None));
  (236, (RRow KKey [VInt 17; VInt 17; VStr (str (bytes_of "Amaj"))] None))]))) in
  match row_heap Debug (RRow KKey [VInt 17; VInt 17; VStr (str (bytes_of "Amaj"))] None) with Ok n => match step Debug n (Some (RRow KKey [VInt 17; VInt 17; VStr (str (bytes_of "Amaj"))] None)) p with Ok q => page_key q = page_key e | _ => False end | _ => False end.
Proof. vm_compute. reflexivity. Qed.

(** test_modification.rs:701 *)
Example t_allocate_row_full_page : let p := (mk_page (mk_phdr 12 (PT KKey) 51 13484 0 (mk_counts 0 0) 36 1 0) (PData (mk_dcontent [VInt 0; VInt 0; VInt 0; VInt 0] [] [
  ]))) in let r := (RRow KKey [VInt 1; VInt 1; VStr (str (bytes_of "Emin"))] None) in
  match row_heap Debug r with Ok n => alloc_row Debug n p = Ok (p, None) /\ ph_used (pg_header p) = 0 | _ => False end.
Proof. vm_compute. now split. Qed.

(** ** Unit tests of src/pdb/string.rs *)
(** string.rs:297 *)
Example t_default_string : dstr_enc Debug dstr_empty = Ok [3] /\ rd_dstr Debug [3] 0 = Ok (dstr_empty, 1).
Proof. vm_compute. repeat split; reflexivity. Qed.
(** string.rs:303 *)
Example t_short_ascii_string : let d := str (bytes_of "foo") in let bs := [9; 0x66; 0x6F; 0x6F] in
  dstr_enc Debug d = Ok bs /\ rd_dstr Debug bs 0 = Ok (d, 4).
Proof. vm_compute. repeat split; reflexivity. Qed.
(** string.rs:309 *)
Example t_long_ascii_string : let d := str (bytes_of "Lorem ipsum dolor sit amet, consetetur sadipscing elitr, sed diam nonumy eirmod tempor invidunt ut labore et dolore magna aliqu") in let bs := [64; 131; 0; 0; 76; 111; 114; 101; 109; 32; 105; 112; 115; 117; 109; 32; 100; 111; 108; 111; 114; 32; 115; 105; 116; 32; 97; 109; 101; 116; 44; 32; 99; 111; 110; 115; 101; 116; 101; 116; 117; 114; 32; 115; 97; 100; 105; 112; 115; 99; 105; 110; 103; 32; 101; 108; 105; 116; 114; 44; 32; 115; 101; 100; 32; 100; 105; 97; 109; 32; 110; 111; 110; 117; 109; 121; 32; 101; 105; 114; 109; 111; 100; 32; 116; 101; 109; 112; 111; 114; 32; 105; 110; 118; 105; 100; 117; 110; 116; 32; 117; 116; 32; 108; 97; 98; 111; 114; 101; 32; 101; 116; 32; 100; 111; 108; 111; 114; 101; 32; 109; 97; 103; 110; 97; 32; 97; 108; 105; 113; 117] in
  dstr_enc Debug d = Ok bs /\ rd_dstr Debug bs 0 = Ok (d, 131).
Proof. vm_compute. repeat split; reflexivity. Qed.
(** string.rs:329 *)
Example t_non_ascii : let d := str [0x49; 0x20; 0x2764; 0x20; 0x52; 0x75; 0x73; 0x74] in
  let bs := [0x90; 0x14; 0; 0; 0x49; 0; 0x20; 0; 0x64; 0x27; 0x20; 0; 0x52; 0; 0x75; 0; 0x73; 0; 0x74; 0] in
  dstr_enc Debug d = Ok bs /\ rd_dstr Debug bs 0 = Ok (d, 20).
Proof. vm_compute. repeat split; reflexivity. Qed.
(** string.rs:339 *)
Example t_too_long_string : dstr_new (List.repeat 0x41 (N.to_nat 65536)) = inr TooLong.
Proof. vm_compute. repeat split; reflexivity. Qed.
(** string.rs:357 *)
Example t_isrc_edge_case : let d := isrc (bytes_of "GBAYE6700149") in
  let bs := [0x90; 0x12; 0; 0; 0x03; 0x47; 0x42; 0x41; 0x59; 0x45; 0x36; 0x37; 0x30; 0x30; 0x31; 0x34; 0x39; 0] in
  dstr_enc Debug d = Ok bs /\ rd_dstr Debug bs 0 = Ok (d, 18) /\
  dstr_enc Debug (isrc []) = Ok [3] /\ dstr_new_isrc (bytes_of "non-conforming garbage") = inr InvalidISRC.
Proof. vm_compute. repeat split; reflexivity. Qed.

(** ** Unit tests of src/pdb/offset_array.rs whose items are strings *)
(** offset_array.rs:378.  Writing ends where it started: the writer seeks back to the base, offset_array.rs:227. *)
Example t_oarr_empty :
  oarr_write Debug 0 OS8 (mk_oarr (Some (mk_offs OS8 [])) []) ([], 0) = Ok ([3], 0) /\
  rd_oarr (rd_dstr Debug) 0 OS8 0 [3] 0 = Ok (mk_oarr (Some (mk_offs OS8 [])) [], 0) /\
  oarr_write Debug 0 OS16 (mk_oarr (Some (mk_offs OS16 [])) []) ([], 0) = Ok ([3; 0], 0) /\
  rd_oarr (rd_dstr Debug) 0 OS16 0 [3; 0] 0 = Ok (mk_oarr (Some (mk_offs OS16 [])) [], 0).
Proof. vm_compute. repeat split; reflexivity. Qed.
(** offset_array.rs:545 *)
Example t_calculated_aligns_ucs2_item_to_4bytes : exists q,
  oarr_write Debug 0 OS8 (mk_oarr None [str (bytes_of "foo"); str [0xE9]]) ([], 0) =
  Ok ([3; 3; 8; 9; 0x66; 0x6F; 0x6F; 0; 0x90; 6; 0; 0; 0xE9; 0], q).
Proof. eexists. vm_compute. reflexivity. Qed.

(** ** Unit test of src/anlz.rs *)
(** anlz.rs:1200 *)
Example t_extended_cue_empty_comment_roundtrip :
  let c := {| ec_header := {| h_kind := KExtendedCue; h_size := 16; h_total := 88 |};
              ec_values := [VInt 4; VNamed 1; VInt 0; VInt 1000; VInt 287479; VInt 4294967295; VNamed 0; VInt 1; VInt 0; VInt 0; VInt 0; VInt 0];
              ec_comment := []; ec_more := [VInt 0; VInt 0x4d; VInt 0; VInt 0xff; VInt 0; VInt 0x00c17000; VInt 0; VInt 0; VInt 0];
              ec_trailing := [2; 48; 119; 97; 0; 0; 0; 0; 0; 0; 0; 0; 0; 0; 16; 0; 0; 0; 0; 0] |} in
  let bs := [80; 67; 80; 50; 0; 0; 0; 16; 0; 0; 0; 88; 0; 0; 0; 4; 1; 0; 3; 232; 0; 4; 98; 247; 255; 255; 255; 255; 0; 1; 0; 0; 0; 0; 0; 0; 0; 0; 0; 0; 0; 0; 0; 0; 0; 77; 0; 255; 0; 0; 0; 0; 0; 193; 112; 0; 0; 0; 0; 0; 0; 0; 0; 0; 0; 0; 0; 0; 2; 48; 119; 97; 0; 0; 0; 0; 0; 0; 0; 0; 0; 0; 16; 0; 0; 0; 0; 0] in
  enc_ecue Debug c = Ok bs /\ rd_ecue Debug bs 0 = Ok (c, 88).
Proof. vm_compute. repeat split; reflexivity. Qed.
