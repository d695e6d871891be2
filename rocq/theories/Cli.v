(** * The command line program: exporting and listing playlists, guessing file types; src/main.rs

    Paths are lists of bytes (Unix).  A name in a playlist tree is a list of code points, which becomes a path by its UTF-8 form.
    Not modelled here: failures of the file system (see [Fs]), symbolic links, the text of messages. *)
From Coq Require Import NArith ZArith List Bool Lia String Ascii.
From Verif Require Import Base Utf Str Schema Oa Rows Page Db Setting Device.
Import ListNotations.
Local Close Scope string_scope.
Open Scope N_scope.

Definition path := list N.
Definition bytes_of (s : string) : list N := map N_of_ascii (list_ascii_of_string s).

(** [Path::is_absolute] and [Path::join] on Unix. *)
Definition is_abs (p : path) : bool := match p with 47 :: _ => true | _ => false end.
Definition needs_sep (p : path) : bool := match p with [] => false | _ => negb (last p 0 =? 47) end.
Definition join (p q : path) : path := if is_abs q then q else p ++ (if needs_sep p then [47] else []) ++ q.
(** The components of a path: what is between slashes, possibly empty. *)
Fixpoint split (p : path) : list path :=
  match p with
  | [] => [[]]
  | c :: r => if c =? 47 then [] :: split r else match split r with x :: xs => (c :: x) :: xs | [] => [[c]] end
  end.
Definition bytes_eqb (a b : list N) : bool := if list_eq_dec N.eq_dec a b then true else false.
(** [Path::file_name]: the last component if it is a name; empty components and "." do not count, ".." and the root are no names. *)
Definition file_name (p : path) : option path :=
  match rev (filter (fun c => negb (bytes_eqb c [] || bytes_eqb c [46])) (split p)) with
  | [] => None
  | c :: _ => if bytes_eqb c [46; 46] then None else Some c
  end.

(** ** Exporting playlists, src/main.rs:191-256 *)

(** What is done to the file system: [create_dir_all], and creating (or truncating) a file with this content. *)
Inductive fsop := MkDirs (p : path) | WriteFile (p : path) (content : list N).

(** [format!("{}.m3u", name)], main.rs:235 *)
Definition m3u (name : list N) : path := utf8_enc (name ++ bytes_of ".m3u").
(** [walk_tree] with the closure of main.rs:233-251 *)
Fixpoint walk (content : N -> list N) (t : pnode) (p : path) : list fsop :=
  match t with
  | PFolder _ name ch => flat_map (fun c => walk content c (join p (utf8_enc name))) ch
  | PPlaylist id name => [MkDirs p; WriteFile (join p (m3u name)) (content id)]
  end.

(** [HashMap]: [entry(k).or_default()] and a change of the value, or [insert]. *)
Fixpoint hm_upd {V} (m : list (N * V)) (k : N) (d : V) (f : V -> V) : list (N * V) :=
  match m with
  | [] => [(k, f d)]
  | (k', v) :: m => if k' =? k then (k', f v) :: m else (k', v) :: hm_upd m k d f
  end.
(** A [PlaylistEntry], src/pdb/mod.rs:1533-1540 *)
Record pentry := mk_pentry { pe_index : N; pe_track : N; pe_playlist : N }.
Definition pentry_of_row (r : row) : option pentry :=
  match r with
  | RRow KPlaylistEntry [VInt i; VInt t; VInt p] _ => Some (mk_pentry i t p)
  | _ => None
  end.
(** main.rs:202-212 and 118-124; a [BTreeMap] is a sorted list *)
Definition entries_map (es : list pentry) : list (N * list (N * N)) :=
  fold_left (fun m e => hm_upd m (pe_playlist e) [] (map_insert (pe_index e) (pe_track e))) es [].
(** The id and the path of a [Track], src/pdb/mod.rs:1695-1728 and 1736-1804: field 20 and string 20 *)
Definition track_of_row (r : row) : option (N * dstr) :=
  match r with
  | RRow KTrack vs (Some c) =>
    match nth_error vs 20, nth_error (oa_items c) 20 with Some (VInt i), Some s => Some (i, s) | _, _ => None end
  | _ => None
  end.
(** main.rs:214-217; the later row of two with the same id stays. *)
Definition tracks_map (ts : list (N * list N)) : list (N * list N) := fold_left (fun m t => hm_upd m (fst t) [] (fun _ => snd t)) ts [].

(** [strip_prefix('/').unwrap_or(track)], main.rs:245 *)
Definition strip_slash (p : path) : path := match p with 47 :: r => r | _ => p end.
(** [Path::display], main.rs:246, on Unix ([Utf8Chunks] of the standard library): what is not UTF-8 is replaced.  A wrong sequence is as long as the
    beginning that could have been continued, and at least one byte. *)
Definition replacement : N := 0xFFFD.
Fixpoint lossy (bs : list N) : list N :=
  match bs with
  | [] => []
  | b0 :: r0 =>
    if b0 <? 0x80 then b0 :: lossy r0
    else if in_range 0xC2 0xDF b0 then
      match r0 with
      | b1 :: r1 => if in_range 0x80 0xBF b1 then (b0 - 0xC0) * 64 + (b1 - 0x80) :: lossy r1 else replacement :: lossy r0
      | [] => [replacement]
      end
    else if in_range 0xE0 0xEF b0 then
      match r0 with
      | b1 :: r1 =>
        if in_range (if b0 =? 0xE0 then 0xA0 else 0x80) (if b0 =? 0xED then 0x9F else 0xBF) b1 then
          match r1 with
          | b2 :: r2 => if in_range 0x80 0xBF b2 then (b0 - 0xE0) * 4096 + (b1 - 0x80) * 64 + (b2 - 0x80) :: lossy r2 else replacement :: lossy r1
          | [] => [replacement]
          end
        else replacement :: lossy r0
      | [] => [replacement]
      end
    else if in_range 0xF0 0xF4 b0 then
      match r0 with
      | b1 :: r1 =>
        if in_range (if b0 =? 0xF0 then 0x90 else 0x80) (if b0 =? 0xF4 then 0x8F else 0xBF) b1 then
          match r1 with
          | b2 :: r2 =>
            if in_range 0x80 0xBF b2 then
              match r2 with
              | b3 :: r3 =>
                if in_range 0x80 0xBF b3 then (b0 - 0xF0) * 262144 + (b1 - 0x80) * 4096 + (b2 - 0x80) * 64 + (b3 - 0x80) :: lossy r3 else replacement :: lossy r2
              | [] => [replacement]
              end
            else replacement :: lossy r1
          | [] => [replacement]
          end
        else replacement :: lossy r0
      | [] => [replacement]
      end
    else replacement :: lossy r0
  end.
Definition display (p : path) : list N := utf8_enc (lossy p).
(** The content of one file, main.rs:239-249; [canon] is the canonical export path.  [writeln] adds a line feed. *)
Definition content (canon : path) (em : list (N * list (N * N))) (tm : list (N * list N)) (id : N) : list N :=
  match mm_get em id with
  | Some m => flat_map (fun x => match mm_get tm (snd x) with Some p => display (join canon (strip_slash (utf8_enc p))) ++ [10] | None => [] end) m
  | None => []
  end.

(** The rows of a table, with what is left of the database. *)
Definition table_rows {A} (b : build) (k : rkind) (f : row -> option A) (d : database) : outcome (list A) :=
  match snd (iter_rows b k d) with
  | Some (DOk rows) => match all_some (map f rows) with Some l => Done l | None => Crash end
  | Some (DErr e) => Fail (PDb e)
  | _ => Crash
  end.
(** [iter_rows], io.rs:168-185, as the lazy iterator that it is: the rows that are delivered one after the other, and how it ends: with [None], with an error
    of a page, or with the panic for a row of another type (the rows before it on its page are delivered). *)
Fixpoint of_variant (k : rkind) (l : list row) : list row :=
  match l with
  | [] => []
  | r :: l => if is_variant k r then r :: of_variant k l else []
  end.
Fixpoint stream_n (b : build) (k : rkind) (fuel : nat) (d : database) (it : piter) : option (list row * dres unit) :=
  match fuel with
  | O => None
  | S n =>
    match iter_next b d it with
    | (_, _, DOk None) => Some ([], DOk tt)
    | (d1, it1, DOk (Some (_, p))) =>
      if forallb (is_variant k) (rows_of_page p)
      then option_map (fun x => (rows_of_page p ++ fst x, snd x)) (stream_n b k n d1 it1)
      else Some (of_variant k (rows_of_page p), DPanic)
    | (_, _, DErr e) => Some ([], DErr e)
    | (_, _, DPanic) => Some ([], DPanic)
    end
  end.
Definition row_stream (b : build) (k : rkind) (d : database) : option (list row * dres unit) :=
  match iter_pages d (PT k) with
  | DOk it => stream_n b k (S (S (List.length (db_pages d)))) d it
  | DErr e => Some ([], DErr e)
  | DPanic => Some ([], DPanic)
  end.
(** main.rs:215-218: the path of each track is decoded when its row is delivered; [collect] ends at the first error. *)
Fixpoint decode_rows (rows : list row) : outcome (list (N * list N)) :=
  match rows with
  | [] => Done []
  | r :: rows =>
    match track_of_row r with
    | None => Crash
    | Some (i, s) =>
      match dstr_into_string s with
      | inl p => match decode_rows rows with Done l => Done ((i, p) :: l) | x => x end
      | inr _ => Fail PEncoding
      end
    end
  end.
Definition track_paths (b : build) (d : database) : option (outcome (list (N * list N))) :=
  match row_stream b KTrack d with
  | None => None
  | Some (rows, r) =>
    match decode_rows rows with
    | Done tr => Some (match r with DOk _ => Done tr | DErr e => Fail (PDb e) | DPanic => Crash end)
    | x => Some x
    end
  end.
(** [export_playlists], main.rs:191-256: the operations. *)
Definition export (b : build) (depth : nat) (d : database) (out canon : path) : option (outcome (list fsop)) :=
  match get_playlists b depth d with
  | None => None
  | Some (Fail e) => Some (Fail e)
  | Some Crash => Some Crash
  | Some (Done ts) =>
    let d1 := fst (iter_rows b KPlaylistTreeNode d) in
    match table_rows b KPlaylistEntry pentry_of_row d1 with
    | Fail e => Some (Fail e)
    | Crash => Some Crash
    | Done es =>
      let d2 := fst (iter_rows b KPlaylistEntry d1) in
      match track_paths b d2 with
      | None => None
      | Some (Fail e) => Some (Fail e)
      | Some Crash => Some Crash
      | Some (Done tr) => Some (Done (flat_map (fun t => walk (content canon (entries_map es) (tracks_map tr)) t out) ts))
      end
    end
  end.

(** ** Listing playlists, src/main.rs:88-189 *)

(** A line of the output: a track that is not found, a track with an artist that is not found, a track with its artist. *)
Inductive tline := TMissing (id : N) | TNoArtist (artist : N) (title : dstr) | TFound (artist title : dstr).
Inductive line := LNode (level : nat) (folder : bool) (name : dstr) | LTrack (level : nat) (index : N) (t : tline).
(** Output until a panic: [true] if the program panics after these lines. *)
Definition output : Type := list line * bool.
Definition out_app (a : output) (b : output) : output := if snd a then a else (fst a ++ fst b, snd b).
(** [println!]: [Display] of some strings. *)
Definition print (ds : list dstr) (l : line) : output := if existsb dstr_display_panics ds then ([], true) else ([l], false).
(** [print_track], main.rs:126-149, with the beginning of the line from 171 *)
Definition print_track (artists : list (N * dstr)) (tracks : list (N * (N * dstr))) (level : nat) (index id : N) : output :=
  match mm_get tracks id with
  | None => print [] (LTrack level index (TMissing id))
  | Some (a, title) =>
    match mm_get artists a with
    | None => print [title] (LTrack level index (TNoArtist a title))
    | Some name => print [name; title] (LTrack level index (TFound name title))
    end
  end.
(** [print_children_of], main.rs:150-177, with a bound on the depth of the recursion.  The children of each node are printed, also of
    nodes that are no folders. *)
Fixpoint out_all {A} (f : A -> option output) (l : list A) : option output :=
  match l with
  | [] => Some ([], false)
  | x :: l =>
    match f x with
    | None => None
    | Some (o, true) => Some (o, true)
    | Some (o, false) => match out_all f l with Some o2 => Some (out_app (o, false) o2) | None => None end
    end
  end.
Fixpoint print_children (depth : nat) (m : list (N * list node)) (em : list (N * list (N * N))) (artists : list (N * dstr))
    (tracks : list (N * (N * dstr))) (id : N) (level : nat) : option output :=
  match depth with
  | O => None
  | S depth =>
    out_all (fun n =>
      let o := print [nd_name n] (LNode level (nd_folder n) (nd_name n)) in
      let o := out_app o (fold_left (fun o x => out_app o (print_track artists tracks level (fst x) (snd x)))
                            (match mm_get em (nd_id n) with Some l => l | None => [] end) ([], false)) in
      if snd o then Some o else
      match print_children depth m em artists tracks (nd_id n) (S level) with
      | Some o2 => Some (out_app o o2)
      | None => None
      end) (match mm_get m id with Some ns => ns | None => [] end)
  end.

(** ** Guessing types *)

(** [guess_db_type], main.rs:341-374.  Options are checked by clap before, others are [unreachable]. *)
Definition guess_db_type (p : path) (opt : option string) : res (option dbtype) :=
  do! cli <- match opt with
             | None => Ok None
             | Some s => if String.eqb s "plain" then Ok (Some DbPlain) else if String.eqb s "ext" then Ok (Some DbExt) else Panic
             end;
  match file_name p with
  | None => Ok None
  | Some f =>
    let file := if bytes_eqb f (bytes_of "export.pdb") then Some DbPlain
                else if bytes_eqb f (bytes_of "exportExt.pdb") then Some DbExt else None in
    match cli, file with
    | None, None => Ok None
    | None, Some g | Some g, None => Ok (Some g)
    | Some c, Some _ => Ok (Some c)
    end
  end.
(** [SettingType::from_filename], src/setting.rs:173-183.  A name that is not UTF-8 is none of these. *)
Definition from_filename (p : path) : option stype :=
  match file_name p with
  | None => None
  | Some f =>
    if bytes_eqb f (bytes_of "DEVSETTING.DAT") then Some TDev
    else if bytes_eqb f (bytes_of "DJMMYSETTING.DAT") then Some TDjm
    else if bytes_eqb f (bytes_of "MYSETTING.DAT") then Some TMy
    else if bytes_eqb f (bytes_of "MYSETTING2.DAT") then Some TMy2
    else None
  end.
(** [guess_setting_type], main.rs:376-413 *)
Definition guess_setting_type (p : path) (opt : option string) : res (option stype) :=
  do! cli <- match opt with
             | None => Ok None
             | Some s =>
               if String.eqb s "devsetting" then Ok (Some TDev) else if String.eqb s "djmmysetting" then Ok (Some TDjm)
               else if String.eqb s "mysetting" then Ok (Some TMy) else if String.eqb s "mysetting2" then Ok (Some TMy2) else Panic
             end;
  match file_name p with
  | None => Ok None
  | Some f =>
    match cli, from_filename f with
    | None, None => Ok None
    | None, Some g | Some g, None => Ok (Some g)
    | Some c, Some _ => Ok (Some c)
    end
  end.
