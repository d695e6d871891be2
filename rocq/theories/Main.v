(** * The program: every command on a file system, src/main.rs

    Not modelled: parsing of arguments (clap), messages on the error stream, a standard output that cannot be written ([println!] panics then),
    and the text that [Debug] makes of a value: the value itself is the output. *)
From Coq Require Import NArith ZArith List Bool String.
From Verif Require Import Base Utf Str Schema Oa Rows Page Db Setting Device Cli CliFacts Listing Dump Show Anlz Xml XmlDoc Fs.
Import ListNotations.
Local Close Scope string_scope.
Open Scope N_scope.

(** [File::open] and reading everything.  A directory can be opened, but not read. *)
Inductive opened := NoFile | OpenDir | OpenFile (bs : list N).
Definition open_file (f : files) (cwd : loc) (p : path) : opened :=
  if has_nul p then NoFile else
  match rev (pieces p) with
  | [] => match p with [] => NoFile | _ => OpenDir end
  | c :: r =>
    match enter f (start cwd p) (rev r) with
    | inr _ => NoFile
    | inl l =>
      if bytes_eqb c dot || bytes_eqb c dotdot then OpenDir
      else match f (l ++ [c]) with
           | None => NoFile
           | Some EDir => OpenDir
           | Some (EFile bs) => if last p 0 =? 47 then NoFile else OpenFile bs
           end
    end
  end.
(** [Path::canonicalize] of a directory that is there, without symbolic links *)
Definition render (l : loc) : path := match l with [] => [47] | _ => flat_map (fun c => 47 :: c) l end.

(** [Commands], main.rs:29-86, and [main], main.rs:413-441 *)
Inductive command :=
| ListPlaylists (p : path)
| ListSettings (p : path)
| ExportPlaylists (p out : path)
| DumpAnlz (p : path)
| DumpPdb (p : path) (db_type : option string) (unknown : bool)
| DumpSetting (p : path) (setting_type : option string)
| DumpXml (p : path).
(** src/device.rs:53-57: the settings files of an export, and 84-88: its database *)
Definition setting_path (p : path) (name : string) : path := join (join p (bytes_of "PIONEER")) (bytes_of name).
Definition pdb_path (p : path) : path := join (join (join p (bytes_of "PIONEER")) (bytes_of "rekordbox")) (bytes_of "export.pdb").

Inductive exit := Success | Failure | Panicked.
Section Main.
Variables (F : Type) (readF : text -> option F) (lex : list N -> option elem).
Inductive printed := PNothing | PLines (ls : list line) | PSettings (t : string) | PAnlz (a : anlz) | PEvents (es : list event) | PSetting (s : setting) | PDoc (d : document F) | PPaths (t : list N).
Definition of_opened (o : opened) : fstate := match o with OpenFile bs => FsBytes bs | _ => FsError end.
(** The commands that only read.  [None]: not finished within the given depth of recursion. *)
Definition show_command (b : build) (depth : nat) (w : pick) (f : files) (cwd : loc) (c : command) : option (printed * exit) :=
  match c with
  | ListPlaylists p =>
    match open_file f cwd p with
    | OpenFile io =>
      match list_playlists b depth io with
      | Some (Done (ls, x)) => Some (PLines ls, if x then Panicked else Success)
      | Some (Fail _) => Some (PNothing, Failure)
      | Some Crash => Some (PNothing, Panicked)
      | None => None
      end
    | _ => Some (PNothing, Failure)
    end
  | ListSettings p =>
    match list_settings w (fun name => of_opened (open_file f cwd (setting_path p name))) with
    | Ok t => Some (PSettings t, Success)
    | Err _ => Some (PNothing, Failure)
    | Panic => Some (PNothing, Panicked)
    end
  | DumpAnlz p =>
    match open_file f cwd p with
    | OpenFile bs => match rd_anlz b bs 0 with Ok (a, _) => Some (PAnlz a, Success) | Err _ => Some (PNothing, Failure) | Panic => Some (PNothing, Panicked) end
    | _ => Some (PNothing, Failure)
    end
  | DumpPdb p t unknown =>
    match guess_db_type p t with
    | Ok None => Some (PNothing, Success)
    | Ok (Some k) =>
      match open_file f cwd p with
      | OpenFile io =>
        match dump_pdb b io k unknown with
        | Some (es, r) => Some (PEvents es, match r with DOk _ => Success | DErr _ => Failure | DPanic => Panicked end)
        | None => None
        end
      | _ => Some (PNothing, Failure)
      end
    | _ => Some (PNothing, Panicked)
    end
  | DumpSetting p t =>
    match guess_setting_type p t with
    | Ok None => Some (PNothing, Success)
    | Ok (Some k) =>
      match open_file f cwd p with
      | OpenFile bs => match rd_setting k bs 0 with Ok (s, _) => Some (PSetting s, Success) | Err _ => Some (PNothing, Failure) | Panic => Some (PNothing, Panicked) end
      | _ => Some (PNothing, Failure)
      end
    | _ => Some (PNothing, Panicked)
    end
  | DumpXml p =>
    (* [expect], main.rs:335: an error of the lexer or of a reader, also for a directory, is a panic *)
    match open_file f cwd p with
    | NoFile => Some (PNothing, Failure)
    | OpenDir => Some (PNothing, Panicked)
    | OpenFile bs => match lex bs with
                     | Some e => match read_doc F readF e with XOk d => Some (PDoc d, Success) | XErr _ => Some (PNothing, Panicked) end
                     | None => Some (PNothing, Panicked)
                     end
    end
  | ExportPlaylists _ _ => None
  end.
(** What [export_playlists] is going to do, main.rs:191-230 *)
Definition plan (b : build) (depth : nat) (f : files) (cwd : loc) (p out : path) : option (outcome (list fsop)) :=
  match open_file f cwd (pdb_path p) with
  | OpenFile io =>
    match db_open io DbPlain with
    | DOk d => export b depth d out (render (locate cwd p))
    | DErr e => Some (Fail (PDb e))
    | DPanic => Some Crash
    end
  | _ => Some (Fail (PDb (DParse EIo)))
  end.
(** A run of the program: what is printed, the exit status, the files afterwards.  [println!] of the path of a playlist: main.rs:237. *)
Inductive execute (b : build) (depth : nat) (w : pick) (cwd : loc) (f : files) : command -> printed -> exit -> files -> Prop :=
| ex_show c o x : show_command b depth w f cwd c = Some (o, x) -> execute b depth w cwd f c o x f
| ex_fail p out e : plan b depth f cwd p out = Some (Fail e) -> execute b depth w cwd f (ExportPlaylists p out) PNothing Failure f
| ex_crash p out : plan b depth f cwd p out = Some Crash -> execute b depth w cwd f (ExportPlaylists p out) PNothing Panicked f
| ex_export p out ops ps f' ok : plan b depth f cwd p out = Some (Done ops) -> run_log cwd f ops ps f' ok ->
    execute b depth w cwd f (ExportPlaylists p out) (PPaths (flat_map (fun q => display q ++ [10]) ps)) (if ok then Success else Failure) f'.
End Main.
