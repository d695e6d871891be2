(** * Row types: /repo/src/pdb/mod.rs:871-2100 and /repo/src/pdb/ext.rs

    Every row struct is a list of fields, for four of them followed by an offset array of strings.  All are little
    endian.  Newtypes around integers (ids, [Subtype]) are integers; [ParentId] (ext.rs:46-50) is the integer that is 0
    for [None]. *)
From Coq Require Import NArith ZArith List Bool Lia.
From Verif Require Import Base Str Schema Oa.
Import ListNotations.
Open Scope N_scope.

Inductive rkind : Type :=
| KAlbum | KArtist | KArtwork | KColor | KGenre | KHistoryPlaylist | KHistoryEntry | KHistory | KKey | KLabel
| KPlaylistTreeNode | KPlaylistEntry | KColumnEntry | KMenu | KTrack       (* PlainRow, mod.rs:1962-2014 *)
| KTag | KTrackTag.                                                         (* ExtRow, ext.rs:189-196 *)

Definition u8f := FInt LE 1.
Definition u16f := FInt LE 2.
Definition u32f := FInt LE 4.

(** src/util.rs:87-117 *)
Definition color_codes : list N := [0; 1; 2; 3; 4; 5; 6; 7; 8].
(** src/util.rs:120-143 *)
Definition filetype_codes : list N := [0; 1; 4; 5; 0xb; 0xc].
(** src/pdb/mod.rs:1869-1878 *)
Definition menuvis_codes : list N := [0; 1].

Definition row_fields (k : rkind) : list field :=
  match k with
  | KAlbum => [u16f; u16f; u32f; u32f; u32f; u32f]                                  (* mod.rs:1008-1025 *)
  | KArtist => [u16f; u16f; u32f]                                                   (* mod.rs:1066-1077 *)
  | KArtwork => [u32f; FStr]                                                        (* mod.rs:1115-1120 *)
  | KColor => [u32f; u8f; FEnum LE 1 color_codes; u16f; FStr]                       (* mod.rs:1155-1166 *)
  | KGenre => [u32f; FStr]                                                          (* mod.rs:1204-1209 *)
  | KHistoryPlaylist => [u32f; FStr]                                                (* mod.rs:1244-1249 *)
  | KHistoryEntry => [u32f; u32f; u32f]                                             (* mod.rs:1284-1291 *)
  | KHistory => [u16f; u16f; u32f; FMagic LE 4 0; FStr; FMagic LE 2 0x1E19; FStr; FStr] (* mod.rs:1331-1349 *)
  | KKey => [u32f; u32f; FStr]                                                      (* mod.rs:1390-1397 *)
  | KLabel => [u32f; FStr]                                                          (* mod.rs:1433-1438 *)
  | KPlaylistTreeNode => [u32f; u32f; u32f; u32f; u32f; FStr]                       (* mod.rs:1473-1486 *)
  | KPlaylistEntry => [u32f; u32f; u32f]                                            (* mod.rs:1533-1540 *)
  | KColumnEntry => [u16f; u16f; FStr]                                              (* mod.rs:1577-1593 *)
  | KMenu => [u16f; u16f; u8f; FEnumF LE 1 menuvis_codes; u16f]                     (* mod.rs:1891-1918 *)
  | KTrack => [u16f; u16f; u32f; u32f; u32f; u32f; u32f; u16f; u16f;
               u32f; u32f; u32f; u32f; u32f; u32f; u32f; u32f; u32f; u32f; u32f; u32f;
               u16f; u16f; u16f; u16f; u16f; u16f;
               FEnum LE 1 color_codes; u8f; FEnumF LE 2 filetype_codes]             (* mod.rs:1736-1804 *)
  | KTag => [u16f; u16f; u32f; u32f; u32f; u32f; u32f; u32f]                        (* ext.rs:90-115 *)
  | KTrackTag => [FMagic LE 4 0; u32f; u32f; u32f]                                  (* ext.rs:142-150 *)
  end.
(** The trailing offset array: its [args] and the number of strings. *)
Definition row_oarr (k : rkind) : option (N * nat) :=
  match k with
  | KAlbum => Some (20, 1%nat)       (* mod.rs:1022 *)
  | KArtist => Some (8, 1%nat)       (* mod.rs:1074 *)
  | KTrack => Some (0x5C, 21%nat)    (* mod.rs:1801 *)
  | KTag => Some (0x1C, 2%nat)       (* ext.rs:113 *)
  | _ => None
  end.

(** [Row], src/pdb/mod.rs:2055-2078 *)
Inductive row : Type := RRow (k : rkind) (vs : list fval) (c : option oarr) | RUnknown.

(** [Subtype::get_offset_size], src/pdb/mod.rs:858-864; the subtype is the first field of these rows. *)
Definition subtype_osize (s : N) : osize := if N.land s 4 =? 0 then OS8 else OS16.
Definition row_osize (vs : list fval) : osize := match vs with VInt s :: _ => subtype_osize s | _ => OS8 end.

(** [DatabaseType] and [PageType], src/pdb/mod.rs:61-142 and ext.rs:170-177.  Page types and row types correspond one
    to one (mod.rs:1962-2014, ext.rs:189-196), so a known page type is named by its row type. *)
Inductive dbtype := DbPlain | DbExt.
Inductive ptype := PT (k : rkind) | PTUnknown (code : N).
Definition kind_code (k : rkind) : N :=
  match k with
  | KTrack => 0 | KGenre => 1 | KArtist => 2 | KAlbum => 3 | KLabel => 4 | KKey => 5 | KColor => 6
  | KPlaylistTreeNode => 7 | KPlaylistEntry => 8 | KHistoryPlaylist => 11 | KHistoryEntry => 12 | KArtwork => 13
  | KColumnEntry => 16 | KMenu => 17 | KHistory => 19
  | KTag => 3 | KTrackTag => 4
  end.
Definition plain_kinds : list rkind :=
  [KTrack; KGenre; KArtist; KAlbum; KLabel; KKey; KColor; KPlaylistTreeNode; KPlaylistEntry; KHistoryPlaylist;
   KHistoryEntry; KArtwork; KColumnEntry; KMenu; KHistory].
Definition ext_kinds : list rkind := [KTag; KTrackTag].
Definition db_kinds (db : dbtype) : list rkind := match db with DbPlain => plain_kinds | DbExt => ext_kinds end.
Definition ptype_of (db : dbtype) (code : N) : ptype :=
  match find (fun k => kind_code k =? code) (db_kinds db) with Some k => PT k | None => PTUnknown code end.
Definition ptype_code (pt : ptype) : N := match pt with PT k => kind_code k | PTUnknown c => c end.
Definition rd_ptype (db : dbtype) : parser ptype := let* c <- rd_le 4; ret (ptype_of db c).

(** Reading a row: [BinRead] of [Row], [PlainRow], [ExtRow]; the [pre_assert]s leave one variant.  [rs] reads strings. *)
Definition rd_row (rs : parser dstr) (pt : ptype) : parser row :=
  match pt with
  | PTUnknown _ => ret RUnknown
  | PT k =>
    let* vs <- rd_fields rs (row_fields k);
    match row_oarr k with
    | None => ret (RRow k vs None)
    | Some (off, n) => let* c <- rd_oarr rs off (row_osize vs) n; ret (RRow k vs (Some c))
    end
  end.
(** Writing a row; ill-typed combinations do not exist in Rust and give [Panic]. *)
Definition row_write (b : build) (r : row) : writer :=
  fun s =>
    match r with
    | RUnknown => Ok s
    | RRow k vs oc =>
      do! bs <- enc_fields b (row_fields k) vs;
      do! s1 <- wr_bytes bs s;
      match row_oarr k, oc with
      | None, None => Ok s1
      | Some (off, _), Some c => oarr_write b off (row_osize vs) c s1
      | _, _ => Panic
      end
    end.

(** ** Predicted sizes: the [PageHeapObject] impls.  The summands are listed as in the code, which does not derive them
    from the fields. *)
Inductive hterm : Type :=
| H8 | H16 | H32        (* mod.rs:700-733, 845-849, 873-981, 1880-1885; ext.rs:35-58 *)
| HStr (i : nat)        (* the string in field i *)
| HOffs.                (* the offset array *)
Definition row_hterms (k : rkind) : list hterm :=
  match k with
  | KAlbum => [H16; H16; H32; H32; H32; H32; HOffs]                                  (* mod.rs:1046-1059 *)
  | KArtist => [H16; H16; H32; HOffs]                                                (* mod.rs:1098-1108 *)
  | KArtwork => [H32; HStr 1]                                                        (* mod.rs:1141-1148 *)
  | KColor => [H32; H8; H8; H16; HStr 4]                                             (* mod.rs:1187-1197 *)
  | KGenre => [H32; HStr 1]                                                          (* mod.rs:1230-1237 *)
  | KHistoryPlaylist => [H32; HStr 1]                                                (* mod.rs:1270-1277 *)
  | KHistoryEntry => [H32; H32; H32]                                                 (* mod.rs:1312-1320 *)
  | KHistory => [H16; H16; H32; H32; HStr 4; H16; HStr 6; HStr 7]                    (* mod.rs:1353-1366 *)
  | KKey => [H32; H32; HStr 2]                                                       (* mod.rs:1418-1426 *)
  | KLabel => [H32; HStr 1]                                                          (* mod.rs:1459-1466 *)
  | KPlaylistTreeNode => [H32; H32; H32; H32; H32; HStr 5]                           (* mod.rs:1515-1526 *)
  | KPlaylistEntry => [H32; H32; H32]                                                (* mod.rs:1561-1569 *)
  | KColumnEntry => [H16; H16; HStr 2]                                               (* mod.rs:1614-1622 *)
  | KMenu => [H16; H16; H8; H8; H16]                                                 (* mod.rs:1922-1932 *)
  | KTrack => [H16; H16; H32; H32; H32; H32; H32; H16; H16;
               H32; H32; H32; H32; H32; H32; H32; H32; H32; H32; H32; H32;
               H16; H16; H16; H16; H16; H16; H8; H8; H16; HOffs]                     (* mod.rs:1825-1862 *)
  | KTag => [H16; H16; H32; H32; H32; H32; H32; H32; HOffs]                          (* ext.rs:119-134 *)
  | KTrackTag => [H32; H32; H32; H32]                                                (* ext.rs:154-163 *)
  end.
Definition hterm_size (b : build) (vs : list fval) (oc : option oarr) (t : hterm) : res N :=
  match t with
  | H8 => Ok 1 | H16 => Ok 2 | H32 => Ok 4
  | HStr i => match nth_error vs i with Some (VStr d) => dstr_heap b d | _ => Panic end
  | HOffs => match oc with Some c => oarr_heap b (row_osize vs) c | None => Panic end
  end.
(** [.iter().sum()] on [u16] *)
Fixpoint sum_u16 (b : build) (acc : N) (l : list (res N)) : res N :=
  match l with [] => Ok acc | x :: r => do! n <- x; do! a <- wadd b 16 acc n; sum_u16 b a r end.
(** src/pdb/mod.rs:2016-2049, 2093-2101; ext.rs:198-206 *)
Definition row_heap (b : build) (r : row) : res N :=
  match r with
  | RUnknown => Panic
  | RRow k vs oc => sum_u16 b 0 (map (hterm_size b vs oc) (row_hterms k))
  end.
