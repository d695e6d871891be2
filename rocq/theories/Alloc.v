(** * Allocation of rows: /repo/src/pdb/mod.rs:566-617 *)
From Coq Require Import NArith ZArith List Bool Lia.
From Verif Require Import Base Str Schema Oa Rows Page.
Import ListNotations.
Open Scope N_scope.

(** [u16::next_multiple_of(4)]; overflow as for [+]. *)
Definition next_mul4 (b : build) (n : N) : res N := if n mod 4 =? 0 then Ok n else wadd b 16 n (4 - n mod 4).

(** What the returned closure captures: the offset, the index of the group and the index in the group. *)
Record ticket : Type := mk_ticket { tk_offset : N; tk_group : N; tk_sub : N }.

Definition phdr_upd (h : phdr) (c : counts) (free used : N) : phdr :=
  mk_phdr (ph_index h) (ph_type h) (ph_next h) (ph_unknown1 h) (ph_unknown2 h) c (ph_flags h) free used.

(** [allocate_row], 574-607: the page afterwards and the closure, if any.  [HEADER_SIZE] is 4 and [OFFSET_SIZE] is 2
    (774-775). *)
Definition alloc_row (b : build) (bytes : N) (p : page) : res (page * option ticket) :=
  match pg_content p with
  | PIndex _ => Ok (p, None)
  | PData c =>
    let h := pg_header p in
    do! n <- next_mul4 b bytes;
    do! r1 <- wadd b 16 n 4; do! required <- wadd b 16 r1 2;
    if ph_free h <? required then Ok (p, None) else
    let offset := ph_used h in
    do! used <- wadd b 16 (ph_used h) n;
    do! free <- wsub b 16 (ph_free h) n;
    do! cnt <- increment_num_rows (ph_counts h);
    match last_row_index cnt with
    | None => Panic
    | Some (g, i) =>
      do! (gs, free2) <- match getN (dc_groups c) g with
                         | Some _ => Ok (dc_groups c, free)
                         | None => do! f <- wsub b 16 free 4; Ok (dc_groups c ++ [rgroup_empty], f)
                         end;
      match getN gs g with
      | None => Panic
      | Some grp =>
        do! free3 <- wsub b 16 free2 2;
        Ok (mk_page (phdr_upd h cnt free3 used)
                    (PData (mk_dcontent (dc_header c) (set_nth (N.to_nat g) (insert_offset grp i offset) gs) (dc_rows c))),
            Some (mk_ticket offset g i))
      end
    end
  end.

(** The closure, 603-613.  It can only be called on the page it was made for. *)
Definition insert_row (t : ticket) (r : row) (p : page) : res page :=
  match pg_content p with
  | PIndex _ => Panic
  | PData c =>
    let h := pg_header p in
    match map_get (tk_offset t) (dc_rows c), getN (dc_groups c) (tk_group t) with
    | None, Some grp =>
      do! cnt <- increment_num_rows_valid (ph_counts h);
      Ok (mk_page (phdr_upd h cnt (ph_free h) (ph_used h))
                  (PData (mk_dcontent (dc_header c) (set_nth (N.to_nat (tk_group t)) (mark_present grp (tk_sub t)) (dc_groups c))
                                      (map_insert (tk_offset t) r (dc_rows c)))))
    | _, _ => Panic
    end
  end.

(** What a user can do: allocate, then call the closure with a row or drop it. *)
Definition step (b : build) (bytes : N) (r : option row) (p : page) : res page :=
  do! (p1, t) <- alloc_row b bytes p;
  match t, r with Some t, Some r => insert_row t r p1 | _, _ => Ok p1 end.
Fixpoint run (b : build) (ops : list (N * option row)) (p : page) : res page :=
  match ops with [] => Ok p | (n, r) :: rest => do! p1 <- step b n r p; run b rest p1 end.
