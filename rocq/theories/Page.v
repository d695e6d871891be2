(** * Pages: /repo/src/pdb/mod.rs:150-870 and /repo/src/pdb/bitfields.rs *)
From Coq Require Import NArith ZArith List Bool Lia.
From Verif Require Import Base Str Schema Oa Rows.
Import ListNotations.
Open Scope N_scope.

(** ** Bit fields *)

(** [PackedRowCounts], src/pdb/bitfields.rs:22-29: 13 bits, then 11 bits, least significant first. *)
Record counts : Type := mk_counts { c_rows : N; c_valid : N }.
Definition counts_code (c : counts) : N := c_rows c + 8192 * c_valid c.
Definition counts_of (x : N) : counts := mk_counts (x mod 8192) (x / 8192).
(** The setters of modular-bitfield panic if the value does not fit, in both build modes. *)
Definition set_rows (c : counts) (n : N) : res counts := if n <? 8192 then Ok (mk_counts n (c_valid c)) else Panic.
Definition set_valid (c : counts) (n : N) : res counts := if n <? 2048 then Ok (mk_counts (c_rows c) n) else Panic.
(** src/pdb/bitfields.rs:40-44; the argument is a usize, cut to 16 bits by [as u16]. *)
Definition counts_all_valid (n : N) : res counts :=
  do! c <- set_rows (mk_counts 0 0) (n mod 65536); set_valid c (n mod 65536).
(** src/pdb/bitfields.rs:47-49 *)
Definition num_row_groups (c : counts) : N := (c_rows c + 15) / 16.
(** src/pdb/bitfields.rs:53-60 *)
Definition last_row_index (c : counts) : option (N * N) :=
  if num_row_groups c =? 0 then None
  else if c_rows c =? 0 then None
  else Some (num_row_groups c - 1, (c_rows c - 1) mod 16).
(** src/pdb/bitfields.rs:63-70; the u16 sums cannot overflow. *)
Definition increment_num_rows (c : counts) : res counts := set_rows c (c_rows c + 1).
Definition increment_num_rows_valid (c : counts) : res counts := set_valid c (c_valid c + 1).

(** [PageFlags], src/pdb/bitfields.rs:77-98: the byte; bit 6 is [is_index_page]. *)
Definition is_index_page (flags : N) : bool := N.testbit flags 6.

(** ** Page indices and index entries *)

(** [PageIndex::try_from], src/pdb/mod.rs:157-167 *)
Definition page_index_try (v : N) : option N := if v <? 0x3FFFFFF then Some v else None.
(** [PageIndex::offset], src/pdb/mod.rs:172-174: a product of u64. *)
Definition page_offset (b : build) (idx page_size : N) : res N := wmul b 64 idx page_size.

(** [IndexEntry], src/pdb/mod.rs:254-298; a value is its u32.  [<<] on u32 drops the bits that are shifted out. *)
Definition index_entry_new (page_index flags : N) : option N :=
  if N.land flags 7 =? flags then Some (N.lor (N.shiftl page_index 3 mod 2 ^ 32) (N.land flags 7)) else None.
Definition index_entry_page (e : N) : option N := page_index_try (N.shiftr e 3).
Definition index_entry_flags (e : N) : N := N.land e 7.
Definition index_entry_empty : N := 0x1FFFFFF8.
Definition index_entry_is_empty (e : N) : bool := e =? 0x1FFFFFF8.
(** [fmt::Debug for IndexEntry], src/pdb/mod.rs:300-315: whether it panics. *)
Definition index_entry_debug_panics (e : N) : bool :=
  if index_entry_is_empty e then false else match index_entry_page e with Some _ => false | None => true end.

(** ** Page header, src/pdb/mod.rs:497-538 *)
Record phdr : Type := mk_phdr {
  ph_index : N; ph_type : ptype; ph_next : N; ph_unknown1 : N; ph_unknown2 : N;
  ph_counts : counts; ph_flags : N; ph_free : N; ph_used : N }.
Definition phdr_fields : list field :=
  [FMagic LE 4 0; u32f; u32f; u32f; u32f; u32f; FInt LE 3; u8f; u16f; u16f].
Definition phdr_vals (h : phdr) : list fval :=
  [VUnit; VInt (ph_index h); VInt (ptype_code (ph_type h)); VInt (ph_next h); VInt (ph_unknown1 h); VInt (ph_unknown2 h);
   VInt (counts_code (ph_counts h)); VInt (ph_flags h); VInt (ph_free h); VInt (ph_used h)].
Definition phdr_of (db : dbtype) (vs : list fval) : res phdr :=
  match vs with
  | [VUnit; VInt i; VInt t; VInt n; VInt u1; VInt u2; VInt c; VInt fl; VInt fr; VInt us] =>
    Ok (mk_phdr i (ptype_of db t) n u1 u2 (counts_of c) fl fr us)
  | _ => Panic
  end.
(** No strings are read here. *)
Definition no_rs : parser dstr := fun _ _ => Err EIo.
Definition rd_phdr (db : dbtype) : parser phdr := let* vs <- rd_fields no_rs phdr_fields; lift (phdr_of db vs).
Definition phdr_enc (b : build) (h : phdr) : res (list N) := enc_fields b phdr_fields (phdr_vals h).

(** ** Index pages *)

(** [IndexPageHeader], src/pdb/mod.rs:319-347 *)
Record ihdr : Type := mk_ihdr {
  ih_a : N; ih_b : N; ih_next_offset : N; ih_page : N; ih_next : N; ih_num : N; ih_first_empty : N }.
Definition ihdr_fields : list field :=
  [u16f; u16f; FMagic LE 2 0x03ec; u16f; u32f; u32f; FMagic LE 8 0x3ffffff; u16f; u16f].
Definition ihdr_vals (h : ihdr) : list fval :=
  [VInt (ih_a h); VInt (ih_b h); VUnit; VInt (ih_next_offset h); VInt (ih_page h); VInt (ih_next h); VUnit;
   VInt (ih_num h); VInt (ih_first_empty h)].
Definition ihdr_of (vs : list fval) : res ihdr :=
  match vs with
  | [VInt a; VInt b; VUnit; VInt o; VInt p; VInt n; VUnit; VInt c; VInt f] => Ok (mk_ihdr a b o p n c f)
  | _ => Panic
  end.
(** [IndexPageContent], src/pdb/mod.rs:359-375 *)
Record icontent : Type := mk_icontent { ic_header : ihdr; ic_entries : list N }.
Definition rd_icontent : parser icontent :=
  let* vs <- rd_fields no_rs ihdr_fields; let* h <- lift (ihdr_of vs);
  let* es <- rd_count (N.to_nat (ih_num h)) (rd_le 4); ret (mk_icontent h es).
(** src/pdb/mod.rs:378-384 *)
Definition total_entries (b : build) (page_size : N) : res N :=
  do! x <- wsub b 32 page_size 0x20; do! y <- wsub b 32 x 28; do! z <- wsub b 32 y 20; Ok (z / 4).
(** Writing.  Without overflow checks a page with too many entries asks for about 2^64 empty entries; that does not end
    normally and is [Panic] here, too. *)
Definition icontent_enc (b : build) (page_size : N) (c : icontent) : res (list N) :=
  do! hb <- enc_fields b ihdr_fields (ihdr_vals (ic_header c));
  do! total <- total_entries b page_size;
  if total <? ih_num (ic_header c) then Panic else
  Ok (hb ++ flat_map (le_enc 4) (ic_entries c) ++
      flat_map (le_enc 4) (repeat index_entry_empty (N.to_nat (total - ih_num (ic_header c)))) ++ zeros 20).

(** ** Row groups, src/pdb/mod.rs:735-838 *)
Record rgroup : Type := mk_rgroup { rg_offs : list N; rg_flags : N; rg_unknown : N }.
Definition rgroup_empty : rgroup := mk_rgroup (repeat 0 16) 0 0.
(** [present_rows_offsets], 786-794 *)
Fixpoint present_from (i flags : N) (l : list N) : list N :=
  match l with [] => [] | o :: r => (if N.testbit flags i then [o] else []) ++ present_from (i + 1) flags r end.
Definition present_offsets (g : rgroup) : list N := present_from 0 (rg_flags g) (rev (rg_offs g)).
(** [u16::leading_zeros] *)
Definition leading_zeros16 (x : N) : N := 16 - N.size x.
Definition rd_rgroup : parser rgroup :=
  let* _ <- seek_rel (-36); let* os <- rd_count 16 (rd_le 2); let* fl <- rd_le 2; let* u <- rd_le 2;
  let* _ <- seek_rel (-36); ret (mk_rgroup os fl u).
(** [write_row_offsets] is 796-812 *)
Definition rgroup_write (g : rgroup) : writer :=
  wr_seq (wr_seek_rel (-36)) (fun s =>
    let skip := leading_zeros16 (rg_flags g) in
    wr_seq (wr_seek_rel (Z.of_N (skip * 2)))
   (wr_seq (wr_bytes (flat_map (le_enc 2) (skipn (N.to_nat skip) (rg_offs g))))
   (wr_seq (wr_bytes (le_enc 2 (rg_flags g)))
   (wr_seq (wr_bytes (le_enc 2 (rg_unknown g)))
   (wr_seek_rel (-36))))) s).
(** [insert_offset] 816-818, [mark_offset_present] 821-823 *)
Fixpoint set_nth {A} (n : nat) (x : A) (l : list A) : list A :=
  match l, n with [], _ => [] | _ :: r, O => x :: r | a :: r, S m => a :: set_nth m x r end.
Definition insert_offset (g : rgroup) (sub offset : N) : rgroup :=
  mk_rgroup (set_nth (N.to_nat (15 - sub)) offset (rg_offs g)) (rg_flags g) (rg_unknown g).
Definition mark_present (g : rgroup) (sub : N) : rgroup :=
  mk_rgroup (rg_offs g) (N.lor (rg_flags g) (N.shiftl 1 sub)) (rg_unknown g).
(** [PartialEq], 832-837 *)
Definition rgroup_eqb (g h : rgroup) : bool :=
  (rg_unknown g =? rg_unknown h) && list_eqb (present_offsets g) (present_offsets h).

(** ** Data pages *)

(** [BTreeMap<u16, Row>] is a list sorted by key. *)
Fixpoint map_insert {A} (k : N) (v : A) (m : list (N * A)) : list (N * A) :=
  match m with
  | [] => [(k, v)]
  | (k', v') :: r => if k <? k' then (k, v) :: m else if k =? k' then (k, v) :: r else (k', v') :: map_insert k v r
  end.
Fixpoint map_get {A} (k : N) (m : list (N * A)) : option A :=
  match m with [] => None | (k', v') :: r => if k =? k' then Some v' else map_get k r end.

(** [DataPageHeader], src/pdb/mod.rs:623-640; [DataPageContent], 653-683 *)
Definition dhdr_fields : list field := [u16f; u16f; u16f; u16f].
Record dcontent : Type := mk_dcontent { dc_header : list fval; dc_groups : list rgroup; dc_rows : list (N * row) }.
(** src/pdb/mod.rs:686-688 *)
Definition page_heap_size (b : build) (page_size : N) : res N :=
  do! x <- wsub b 32 page_size 0x20; wsub b 32 x 8.
(** [parse_at_offsets], src/util.rs:146-169, collecting into a [BTreeMap]; stops at the first error. *)
Fixpoint rd_rows_at (rs : parser dstr) (pt : ptype) (base : N) (os : list N) (acc : list (N * row)) (buf : list N)
  : res (list (N * row)) :=
  match os with
  | [] => Ok acc
  | o :: os' => match rd_row rs pt buf (base + o) with
                | Ok (r, _) => rd_rows_at rs pt base os' (map_insert o r acc) buf
                | Err e => Err e
                | Panic => Panic
                end
  end.
Definition rd_dcontent (b : build) (rs : parser dstr) (page_size : N) (h : phdr) : parser dcontent :=
  let* dh <- rd_fields no_rs dhdr_fields;
  let* heap <- lift (page_heap_size b page_size);
  let* base <- tell;
  let* _ <- seek_to (base + heap);
  let* gs <- rd_count (N.to_nat (num_row_groups (ph_counts h))) rd_rgroup;
  let* _ <- seek_to base;
  let* rows <- (fun buf pos => match rd_rows_at rs (ph_type h) base (flat_map present_offsets gs) [] buf with
                               | Ok m => Ok (m, pos) | Err e => Err e | Panic => Panic end);
  let* _ <- guard (len rows =? c_valid (ph_counts h)) EAssertFail;
  let* _ <- seek_to (base + heap);
  ret (mk_dcontent dh gs rows).
(** [write_at_offsets], src/util.rs:172-193 *)
Fixpoint wr_rows_at (b : build) (base : N) (rows : list (N * row)) (s : list N * N) : res (list N * N) :=
  match rows with
  | [] => Ok s
  | (o, r) :: rest =>
    do! s1 <- wr_seek (base + o) s;
    do! s2 <- row_write b r s1;
    do! s3 <- wr_seek base s2;
    wr_rows_at b base rest s3
  end.
Definition dcontent_write (b : build) (page_size : N) (c : dcontent) : writer :=
  fun s =>
    do! dh <- enc_fields b dhdr_fields (dc_header c);
    do! s1 <- wr_bytes dh s;
    do! heap <- page_heap_size b page_size;
    let base := snd s1 in
    do! s2 <- wr_seek (base + heap) s1;
    do! s3 <- wr_all (map rgroup_write (dc_groups c)) s2;
    do! s4 <- wr_seek base s3;
    do! s5 <- wr_rows_at b base (dc_rows c) s4;
    wr_seek (base + heap) s5.

(** ** Pages, src/pdb/mod.rs:428-439 and 555-564 *)
Inductive pcontent := PData (c : dcontent) | PIndex (c : icontent).
Record page : Type := mk_page { pg_header : phdr; pg_content : pcontent }.
Definition rd_page (b : build) (rs : parser dstr) (page_size : N) (db : dbtype) : parser page :=
  let* h <- rd_phdr db;
  if is_index_page (ph_flags h) then let* c <- rd_icontent; ret (mk_page h (PIndex c))
  else let* c <- rd_dcontent b rs page_size h; ret (mk_page h (PData c)).
Definition page_write (b : build) (page_size : N) (p : page) : writer :=
  fun s =>
    do! hb <- phdr_enc b (pg_header p);
    do! s1 <- wr_bytes hb s;
    match pg_content p with
    | PIndex c => do! x <- icontent_enc b page_size c; wr_bytes x s1
    | PData c => dcontent_write b page_size c s1
    end.
