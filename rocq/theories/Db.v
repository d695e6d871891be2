(** * Databases: /repo/src/pdb/mod.rs:183-248 and /repo/src/pdb/io.rs *)
From Coq Require Import NArith ZArith List Bool Lia.
From Verif Require Import Base Str Schema Oa Rows Page.
Import ListNotations.
Open Scope N_scope.

(** [Table], src/pdb/mod.rs:183-200 *)
Record table : Type := mk_table { tb_type : ptype; tb_empty : N; tb_first : N; tb_last : N }.
Definition rd_table (db : dbtype) : parser table :=
  let* t <- rd_ptype db; let* e <- rd_le 4; let* f <- rd_le 4; let* l <- rd_le 4; ret (mk_table t e f l).
Definition table_enc (t : table) : list N :=
  le_enc 4 (ptype_code (tb_type t)) ++ le_enc 4 (tb_empty t) ++ le_enc 4 (tb_first t) ++ le_enc 4 (tb_last t).

(** [Header], src/pdb/mod.rs:205-226 *)
Record dbhdr : Type := mk_dbhdr { dh_page_size : N; dh_num : N; dh_next : N; dh_unknown : N; dh_seq : N; dh_tables : list table }.
Definition rd_dbhdr (db : dbtype) : parser dbhdr :=
  let* _ <- magic_le 4 0; let* ps <- rd_le 4; let* n <- rd_le 4; let* nx <- rd_le 4; let* u <- rd_le 4; let* s <- rd_le 4;
  let* _ <- magic_le 4 0; let* ts <- rd_count (N.to_nat n) (rd_table db); ret (mk_dbhdr ps n nx u s ts).
Definition dbhdr_enc (h : dbhdr) : list N :=
  le_enc 4 0 ++ le_enc 4 (dh_page_size h) ++ le_enc 4 (dh_num h) ++ le_enc 4 (dh_next h) ++ le_enc 4 (dh_unknown h) ++
  le_enc 4 (dh_seq h) ++ le_enc 4 0 ++ flat_map table_enc (dh_tables h).

(** Equality of page types, derived ([PartialEq]). *)
Definition rkind_eq_dec (x y : rkind) : {x = y} + {x <> y}.
Proof. decide equality. Defined.
Definition ptype_eqb (x y : ptype) : bool :=
  match x, y with
  | PT k, PT k' => if rkind_eq_dec k k' then true else false
  | PTUnknown c, PTUnknown c' => c =? c'
  | _, _ => false
  end.
(** [Header::find_table], src/pdb/mod.rs:231-237 *)
Fixpoint find_from (i : N) (t : ptype) (l : list table) : option (N * table) :=
  match l with [] => None | x :: rest => if ptype_eqb (tb_type x) t then Some (i, x) else find_from (i + 1) t rest end.
Definition find_table (t : ptype) (h : dbhdr) : option (N * table) := find_from 0 t (dh_tables h).

(** Errors, /repo/src/util.rs:18-55 *)
Inductive dberr := DParse (e : err) | DPageNotPresent (i : N) | DPageOrder (i : N) | DTableNotPresent (i : N) | DTableType (t : ptype).
Inductive dres (A : Type) := DOk (x : A) | DErr (e : dberr) | DPanic.
Arguments DOk {A} x.
Arguments DErr {A} e.
Arguments DPanic {A}.

(** [Database] with [LazyDatabase] (io.rs:32-47, 83-88): the file, the kind of database, the header and the pages, [None]
    if not loaded.  Entry [k] of the list is page [k+1].  The file is a list of bytes; reading behind its end fails,
    writing behind its end fills the gap with zeros.  Each operation seeks first, so the position is not kept. *)
Record database : Type := mk_db { db_io : list N; db_kind : dbtype; db_header : dbhdr; db_pages : list (option page) }.
Definition with_pages (d : database) (ps : list (option page)) : database := mk_db (db_io d) (db_kind d) (db_header d) ps.

(** [read_page], io.rs:69-80 *)
Definition read_page (b : build) (d : database) (i : N) : dres page :=
  let ps := dh_page_size (db_header d) in
  match (do! off <- page_offset b i ps; rd_page b (rd_dstr b) ps (db_kind d) (db_io d) off) with
  | Ok (p, _) => DOk p
  | Err e => DErr (DParse e)
  | Panic => DPanic
  end.
(** [open] and [open_non_persistent], io.rs:93-101, 200-209, with the file at its start: the header is read, all pages are
    not loaded. *)
Definition db_open (io : list N) (k : dbtype) : dres database :=
  match rd_dbhdr k io 0 with
  | Ok (h, _) => DOk (mk_db io k h (repeat None (N.to_nat (dh_next h - 1))))
  | Err e => DErr (DParse e)
  | Panic => DPanic
  end.

(** The entry of a page, filled if necessary (io.rs:110-122, 290-297); [pos] is the position in the list. *)
Definition load_entry (b : build) (d : database) (pos i : N) : database * dres page :=
  match getN (db_pages d) pos with
  | None => (d, DPanic)
  | Some (Some p) => (d, DOk p)
  | Some None =>
    match read_page b d i with
    | DOk p => (with_pages d (set_nth (N.to_nat pos) (Some p) (db_pages d)), DOk p)
    | r => (d, r)
    end
  end.
(** [load_page], io.rs:104-123; [usize] has 64 bits. *)
Definition load_page (b : build) (d : database) (i : N) : database * dres page :=
  match wsub b 64 i 1 with
  | Ok pos => if pos <? len (db_pages d) then load_entry b d pos i else (d, DErr (DPageNotPresent i))
  | _ => (d, DPanic)
  end.

(** [PageIterator], io.rs:256-266: [it_base] and [it_len] describe the slice [db_pages] of the page list, [it_off] is
    [db_pages_offset]. *)
Record piter : Type := mk_piter { it_base : N; it_len : N; it_off : N; it_next : option N; it_last : N }.
Definition iter_of (d : database) (t : table) : piter := mk_piter 0 (len (db_pages d)) 1 (Some (tb_first t)) (tb_last t).
(** [iter_pages_for_table] and [iter_pages], io.rs:126-165 *)
Definition iter_pages_for_table (d : database) (i : N) : dres piter :=
  match getN (dh_tables (db_header d)) i with Some t => DOk (iter_of d t) | None => DErr (DTableNotPresent i) end.
Definition iter_pages (d : database) (t : ptype) : dres piter :=
  match find_table t (db_header d) with Some (_, x) => DOk (iter_of d x) | None => DErr (DTableType t) end.
(** [next], io.rs:273-309.  [mem::take] leaves an empty slice behind, which stays if the function returns early. *)
Definition iter_next (b : build) (d : database) (it : piter) : database * piter * dres (option (N * page)) :=
  match it_next it with
  | None => (d, it, DOk None)
  | Some i =>
    if i <? it_off it then (d, it, DErr (DPageOrder i)) else
    let k := i - it_off it in
    if it_len it <=? k then (d, mk_piter (it_base it) 0 (it_off it) (it_next it) (it_last it), DErr (DPageNotPresent i)) else
    let it1 := mk_piter (it_base it + k + 1) (it_len it - k - 1) (i + 1) (it_next it) (it_last it) in
    match load_entry b d (it_base it + k) i with
    | (d1, DOk p) =>
      (d1, mk_piter (it_base it1) (it_len it1) (it_off it1) (if i =? it_last it then None else Some (ph_next (pg_header p))) (it_last it),
       DOk (Some (i, p)))
    | (d1, DErr e) => (d1, it1, DErr e)
    | (d1, DPanic) => (d1, it1, DPanic)
    end
  end.
(** Calling [next] until there is no page left, as [collect] does.  The fuel is always enough, see [c25_collect]. *)
Fixpoint collect_n (b : build) (fuel : nat) (d : database) (it : piter) : database * option (dres (list (N * page))) :=
  match fuel with
  | O => (d, None)
  | S n =>
    match iter_next b d it with
    | (d1, _, DOk None) => (d1, Some (DOk []))
    | (d1, it1, DOk (Some x)) =>
      let (d2, r) := collect_n b n d1 it1 in
      (d2, match r with Some (DOk l) => Some (DOk (x :: l)) | r => r end)
    | (d1, _, DErr e) => (d1, Some (DErr e))
    | (d1, _, DPanic) => (d1, Some DPanic)
    end
  end.
Definition collect (b : build) (d : database) (it : piter) : database * option (dres (list (N * page))) :=
  collect_n b (S (S (length (db_pages d)))) d it.

(** [RowVariant::from_row_mut] of the row type for kind [k]; the page type is [PT k] (mod.rs:1027-1950). *)
Definition is_variant (k : rkind) (r : row) : bool :=
  match r with RRow k' _ _ => if rkind_eq_dec k k' then true else false | RUnknown => false end.
(** The rows of a page, in the order of the [BTreeMap]; index pages are skipped (io.rs:174-181). *)
Definition rows_of_page (p : page) : list row := match pg_content p with PData c => map snd (dc_rows c) | PIndex _ => [] end.
(** [iter_rows], io.rs:168-185, collected: panics at the first row that is not of the wanted type. *)
Definition rows_as (k : rkind) (l : list row) : dres (list row) := if forallb (is_variant k) l then DOk l else DPanic.
Fixpoint rows_n (b : build) (k : rkind) (fuel : nat) (d : database) (it : piter) : database * option (dres (list row)) :=
  match fuel with
  | O => (d, None)
  | S n =>
    match iter_next b d it with
    | (d1, _, DOk None) => (d1, Some (DOk []))
    | (d1, it1, DOk (Some (_, p))) =>
      match rows_as k (rows_of_page p) with
      | DOk l =>
        let (d2, r) := rows_n b k n d1 it1 in
        (d2, match r with Some (DOk l') => Some (DOk (l ++ l')) | r => r end)
      | r => (d1, Some r)
      end
    | (d1, _, DErr e) => (d1, Some (DErr e))
    | (d1, _, DPanic) => (d1, Some DPanic)
    end
  end.
Definition iter_rows (b : build) (k : rkind) (d : database) : database * option (dres (list row)) :=
  match iter_pages d (PT k) with
  | DOk it => rows_n b k (S (S (length (db_pages d)))) d it
  | DErr e => (d, Some (DErr e))
  | DPanic => (d, Some DPanic)
  end.

(** [flush], io.rs:213-218: the header padded to a page (33-35), then each page (49-67): pages that are not loaded are
    skipped. *)
Definition lpage_write (b : build) (ps : N) (p : option page) : writer :=
  match p with Some p => page_write b ps p | None => wr_seek_rel (Z.of_N ps) end.
Definition db_write (b : build) (d : database) : writer :=
  let ps := dh_page_size (db_header d) in
  wr_seq (wr_bytes (dbhdr_enc (db_header d) ++ zeros (ps - len (dbhdr_enc (db_header d))))) (wr_all (map (lpage_write b ps) (db_pages d))).
Definition flush (b : build) (d : database) : dres database :=
  match db_write b d (db_io d, 0) with
  | Ok (io, _) => DOk (mk_db io (db_kind d) (db_header d) (db_pages d))
  | Err e => DErr (DParse e)
  | Panic => DPanic
  end.
