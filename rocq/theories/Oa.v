(** * Offset arrays: /repo/src/pdb/offset_array.rs

    All offset arrays of the row types hold DeviceSQL strings (src/pdb/mod.rs:984, 1638, src/pdb/ext.rs:69), so the
    item type is fixed to [dstr].  The array length [N] is the length of the item list. *)
From Coq Require Import NArith ZArith List Bool Lia.
From Verif Require Import Base Str.
Import ListNotations.
Open Scope N_scope.

(** src/pdb/offset_array.rs:65-78 *)
Inductive osize := OS8 | OS16.
Definition os_nat (sz : osize) : nat := match sz with OS8 => 1 | OS16 => 2 end.
Definition os_bytes (sz : osize) : N := N.of_nat (os_nat sz).

(** src/pdb/offset_array.rs:289-300: the enum [OffsetArray]. *)
Record offs : Type := mk_offs { of_size : osize; of_list : list N }.

(** src/pdb/offset_array.rs:82-90; [None] is [MaybeCalculated::Calculated] (src/util.rs:69-76). *)
Record oarr : Type := mk_oarr { oa_offs : option offs; oa_items : list dstr }.

Definition osize_eqb (a b : osize) : bool := match a, b with OS8, OS8 | OS16, OS16 => true | _, _ => false end.

(** Writing an [OffsetArray]: the magic and the offsets, src/pdb/offset_array.rs:289-300. *)
Definition offs_enc (o : offs) : list N :=
  le_enc (os_nat (of_size o)) 3 ++ flat_map (le_enc (os_nat (of_size o))) (of_list o).
(** Reading it.  The [pre_assert]s leave only the variant of the given size, so the check
    [assert_offset_size_matches] (150-155) cannot fail. *)
Definition rd_offs (sz : osize) (n : nat) : parser offs :=
  let* _ <- magic_le (os_nat sz) 3; let* l <- rd_count n (rd_le (os_nat sz)); ret (mk_offs sz l).

(** src/pdb/offset_array.rs:121-128 *)
Definition calculate_base (start offset : N) : res N :=
  if offset <=? start then Ok (start - offset) else Err EAssertFail.

(** [u64::next_multiple_of]; here its argument is far from 2^64. *)
Definition next_mult (x a : N) : N := (x + a - 1) / a * a.
(** src/pdb/offset_array.rs:130-132 *)
Definition aligned_offset (offset align : N) : N := next_mult offset (N.max align 1).

(** src/pdb/offset_array.rs:158-165, with [try_map_polyfill] (src/util.rs:219-229), which runs the closure for all items
    even after an error; after an error the position is where the failed item started, see DESIGN.md. *)
Fixpoint rd_items (rs : parser dstr) (base cur : N) (os : list N) (buf : list N) : res (list dstr) :=
  match os with
  | [] => Ok []
  | o :: os' =>
    match rs buf (cur + o) with
    | Ok (d, _) => match rd_items rs base base os' buf with Ok ds => Ok (d :: ds) | r => r end
    | Err e => match rd_items rs base (cur + o) os' buf with Panic => Panic | _ => Err e end
    | Panic => Panic
    end
  end.

(** src/pdb/offset_array.rs:143-170.  The reader ends at the base. *)
Definition rd_oarr (rs : parser dstr) (offset : N) (sz : osize) (n : nat) : parser oarr :=
  fun buf start =>
    match rd_offs sz n buf start with
    | Ok (o, _) =>
      do! base <- calculate_base start offset;
      do! items <- rd_items rs base base (of_list o) buf;
      Ok (mk_oarr (Some o) items, base)
    | Err e => Err e
    | Panic => Panic
    end.

(** src/pdb/offset_array.rs:195-212: the closure over the items; returns the offsets.  The zeros of the padding are
    written in one piece instead of one by one. *)
Fixpoint wr_items_calc (b : build) (base : N) (items : list dstr) (s : list N * N) : res (list N * (list N * N)) :=
  match items with
  | [] => Ok ([], s)
  | d :: items' =>
    let current_offset := snd s - base in
    let aligned := aligned_offset current_offset (dstr_align d) in
    do! s1 <- wr_bytes (zeros (aligned - current_offset)) s;
    do! s2 <- dstr_write b d s1;
    do! (os, s3) <- wr_items_calc b base items' s2;
    Ok (aligned :: os, s3)
  end.

(** src/pdb/offset_array.rs:324-329 *)
Definition offs_new (sz : osize) (os : list N) : res offs :=
  if forallb (fun o => o <? 256 ^ os_bytes sz) os then Ok (mk_offs sz os) else Err EAssertFail.

(** src/pdb/offset_array.rs:229-236 *)
Fixpoint wr_items_at (b : build) (base : N) (items : list dstr) (os : list N) (s : list N * N) : res (list N * N) :=
  match items, os with
  | d :: items', o :: os' =>
    do! s1 <- wr_seek (base + o) s;
    do! s2 <- dstr_write b d s1;
    do! s3 <- wr_seek base s2;
    wr_items_at b base items' os' s3
  | _, _ => Ok s
  end.

(** src/pdb/offset_array.rs:181-239 *)
Definition oarr_write (b : build) (offset : N) (sz : osize) (c : oarr) : writer :=
  fun s =>
    let start := snd s in
    do! base <- calculate_base start offset;
    match oa_offs c with
    | None =>
      let offsets_bytes := (len (oa_items c) + 1) * os_bytes sz in
      do! s1 <- wr_seek (start + offsets_bytes) s;
      do! (raw, s2) <- wr_items_calc b base (oa_items c) s1;
      do! o <- offs_new sz raw;
      do! s3 <- wr_seek start s2;
      wr_bytes (offs_enc o) s3
    | Some o =>
      if osize_eqb (of_size o) sz then
        do! s1 <- wr_bytes (offs_enc o) s;
        do! s2 <- wr_seek base s1;
        wr_items_at b base (oa_items c) (of_list o) s2
      else Err EAssertFail
    end.

(** src/pdb/offset_array.rs:248-257 *)
Fixpoint oarr_heap_items (b : build) (calc : bool) (items : list dstr) (total : N) : res N :=
  match items with
  | [] => Ok total
  | d :: items' =>
    let total1 := if calc then aligned_offset total (dstr_align d) mod 65536 else total in
    do! h <- dstr_heap b d;
    do! total2 <- wadd b 16 total1 h;
    oarr_heap_items b calc items' total2
  end.
Definition oarr_heap (b : build) (sz : osize) (c : oarr) : res N :=
  oarr_heap_items b (match oa_offs c with None => true | Some _ => false end) (oa_items c)
    (((len (oa_items c) + 1) * os_bytes sz) mod 65536).
