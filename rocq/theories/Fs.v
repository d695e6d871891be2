(** * A file system, and what the exporter does to it: src/main.rs:231-253 with [create_dir_all] and [File::create] of the standard library

    A location is the list of names from the root.  There are no symbolic links, and names that differ are different files (on the file
    systems of some devices names that differ in case only are the same).  The current directory exists.  [create_dir_all] is
    modelled as in the standard library: [mkdir] for the path, on [NotFound] for the parent first, then again for the path. *)
From Coq Require Import NArith List Bool.
From Verif Require Import Base Utf Str Device Cli.
Import ListNotations.
Open Scope N_scope.

Definition loc := list path.
Inductive entry := EDir | EFile (content : list N).
Definition files := loc -> option entry.
Definition loc_eq_dec : forall a b : loc, {a = b} + {a <> b} := list_eq_dec (list_eq_dec N.eq_dec).
Definition put (f : files) (l : loc) (e : entry) : files := fun x => if loc_eq_dec x l then Some e else f x.

Inductive fserr := NotFound | NotDir | Exists | IsDir | Invalid.
Definition dot : path := [46].
Definition dotdot : path := [46; 46].
(** The pieces of a path as the kernel takes them: "." counts, empty pieces do not. *)
Definition pieces (p : path) : list path := filter (fun c => negb (bytes_eqb c [])) (split p).
Definition start (cwd : loc) (p : path) : loc := if is_abs p then [] else cwd.
(** The directory that a list of pieces leads to. *)
Fixpoint enter (f : files) (l : loc) (cs : list path) : loc + fserr :=
  match cs with
  | [] => inl l
  | c :: cs =>
    if bytes_eqb c dot then enter f l cs
    else if bytes_eqb c dotdot then enter f (removelast l) cs
    else match f (l ++ [c]) with Some EDir => enter f (l ++ [c]) cs | Some (EFile _) => inr NotDir | None => inr NotFound end
  end.
Definition is_dir (f : files) (s : loc) (cs : list path) : bool := match enter f s cs with inl _ => true | inr _ => false end.
(** [mkdir(2)] *)
Definition mkdir (f : files) (s : loc) (cs : list path) : files + fserr :=
  match rev cs with
  | [] => inr Exists
  | c :: r =>
    match enter f s (rev r) with
    | inr e => inr e
    | inl l =>
      if bytes_eqb c dot || bytes_eqb c dotdot then inr Exists
      else match f (l ++ [c]) with None => inl (put f (l ++ [c]) EDir) | Some _ => inr Exists end
    end
  end.
(** [Path::parent], which does not see "." *)
Fixpoint drop_dots (r : list path) : list path := match r with c :: r' => if bytes_eqb c dot then drop_dots r' else r | [] => [] end.
Definition parent (cs : list path) : list path := rev (drop_dots (tl (drop_dots (rev cs)))).
(** [create_dir_all]; what is there afterwards, and the error.  [n] bounds the recursion; [fs_fuel] shows that the number of pieces suffices. *)
Fixpoint make_dirs (n : nat) (f : files) (s : loc) (cs : list path) : files * option fserr :=
  match cs with
  | [] => (f, None)
  | _ =>
    match mkdir f s cs with
    | inl f1 => (f1, None)
    | inr NotFound =>
      match n with
      | O => (f, Some NotFound)
      | S n =>
        match make_dirs n f s (parent cs) with
        | (f1, Some e) => (f1, Some e)
        | (f1, None) =>
          match mkdir f1 s cs with
          | inl f2 => (f2, None)
          | inr e => (f1, if is_dir f1 s cs then None else Some e)
          end
        end
      end
    | inr e => (f, if is_dir f s cs then None else Some e)
    end
  end.
(** A path with a zero byte is rejected by the standard library. *)
Definition has_nul (p : path) : bool := existsb (N.eqb 0) p.
Definition create_dir_all (f : files) (cwd : loc) (p : path) : files * option fserr :=
  match p with
  | [] => (f, None)
  | _ => if has_nul p then (f, Some Invalid) else let cs := pieces p in make_dirs (length cs) f (start cwd p) cs
  end.
(** [File::create] with everything that is written then: the file is created or emptied.  A path that ends with a slash is no file. *)
Definition create_file (f : files) (cwd : loc) (p : path) (content : list N) : files + fserr :=
  if has_nul p then inr Invalid else
  match rev (pieces p) with
  | [] => match p with [] => inr NotFound | _ => inr IsDir end
  | c :: r =>
    match enter f (start cwd p) (rev r) with
    | inr e => inr e
    | inl l =>
      if bytes_eqb c dot || bytes_eqb c dotdot || (last p 0 =? 47) then inr IsDir
      else match f (l ++ [c]) with Some EDir => inr IsDir | _ => inl (put f (l ++ [c]) (EFile content)) end
    end
  end.

(** A run of operations; the first error ends it.  Besides the errors above there may be faults (permissions, full or removed devices,
    limits of lengths, a path that cannot be canonicalized): a directory is made for a beginning of the pieces only or not at all, a file
    is not created, or gets a beginning of the content only. *)
Inductive run (cwd : loc) : files -> list fsop -> files -> bool -> Prop :=
| run_done f : run cwd f [] f true
| run_dirs f p f1 ops f2 ok : create_dir_all f cwd p = (f1, None) -> run cwd f1 ops f2 ok -> run cwd f (MkDirs p :: ops) f2 ok
| run_dirs_err f p f1 e ops : create_dir_all f cwd p = (f1, Some e) -> run cwd f (MkDirs p :: ops) f1 false
| run_dirs_fault f p k n f1 ops : fst (make_dirs n f (start cwd p) (firstn k (pieces p))) = f1 -> run cwd f (MkDirs p :: ops) f1 false
| run_dirs_refused f p ops : run cwd f (MkDirs p :: ops) f false
| run_file f p c f1 ops f2 ok : create_file f cwd p c = inl f1 -> run cwd f1 ops f2 ok -> run cwd f (WriteFile p c :: ops) f2 ok
| run_file_err f p c e ops : create_file f cwd p c = inr e -> run cwd f (WriteFile p c :: ops) f false
| run_file_fault f p c k f1 ops : create_file f cwd p (firstn k c) = inl f1 -> run cwd f (WriteFile p c :: ops) f1 false
| run_file_refused f p c ops : run cwd f (WriteFile p c :: ops) f false.
(** The same with what is printed: the path of a playlist is printed when its directory is there, before the file is created (main.rs:237-238). *)
Inductive run_log (cwd : loc) : files -> list fsop -> list path -> files -> bool -> Prop :=
| log_done f : run_log cwd f [] [] f true
| log_dirs f p f1 ops ps f2 ok : create_dir_all f cwd p = (f1, None) -> run_log cwd f1 ops ps f2 ok -> run_log cwd f (MkDirs p :: ops) ps f2 ok
| log_dirs_err f p f1 e ops : create_dir_all f cwd p = (f1, Some e) -> run_log cwd f (MkDirs p :: ops) [] f1 false
| log_dirs_fault f p k n f1 ops : fst (make_dirs n f (start cwd p) (firstn k (pieces p))) = f1 -> run_log cwd f (MkDirs p :: ops) [] f1 false
| log_dirs_refused f p ops : run_log cwd f (MkDirs p :: ops) [] f false
| log_file f p c f1 ops ps f2 ok : create_file f cwd p c = inl f1 -> run_log cwd f1 ops ps f2 ok -> run_log cwd f (WriteFile p c :: ops) (p :: ps) f2 ok
| log_file_err f p c e ops : create_file f cwd p c = inr e -> run_log cwd f (WriteFile p c :: ops) [p] f false
| log_file_fault f p c k f1 ops : create_file f cwd p (firstn k c) = inl f1 -> run_log cwd f (WriteFile p c :: ops) [p] f1 false
| log_file_refused f p c ops : run_log cwd f (WriteFile p c :: ops) [p] f false.
(** A run without faults. *)
Fixpoint perform (cwd : loc) (f : files) (ops : list fsop) : files * option fserr :=
  match ops with
  | [] => (f, None)
  | MkDirs p :: ops => match create_dir_all f cwd p with (f1, None) => perform cwd f1 ops | (f1, Some e) => (f1, Some e) end
  | WriteFile p c :: ops => match create_file f cwd p c with inl f1 => perform cwd f1 ops | inr e => (f, Some e) end
  end.
