(** * Properties C14 to C16, C34: bit fields, index entries, page offsets *)
From Coq Require Import NArith List Bool Lia.
From Verif Require Import Base BaseFacts Schema Rows Page BitFacts.
Import ListNotations.
Open Scope N_scope.

(** C14: every 24-bit pattern is one pair of counts and back; the bits are those of the two counts. *)
Theorem c14_bijection :
  (forall x, x < 2 ^ 24 -> counts_ok (counts_of x) /\ counts_code (counts_of x) = x) /\
  (forall r v, r < 8192 -> v < 2048 ->
     counts_code (mk_counts r v) < 2 ^ 24 /\ counts_of (counts_code (mk_counts r v)) = mk_counts r v).
Proof. exact counts_bijection. Qed.
Print Assumptions c14_bijection.
Theorem c14_bits : forall c i, c_rows c < 8192 ->
  N.testbit (counts_code c) i = if i <? 13 then N.testbit (c_rows c) i else N.testbit (c_valid c) (i - 13).
Proof. exact counts_bits. Qed.
Print Assumptions c14_bits.
(** One more row: the other count is untouched; at the maximum it panics, it never wraps. *)
Theorem c14_increment : forall c, counts_ok c ->
  increment_num_rows c = (if c_rows c =? 8191 then Panic else Ok (mk_counts (c_rows c + 1) (c_valid c))) /\
  increment_num_rows_valid c = (if c_valid c =? 2047 then Panic else Ok (mk_counts (c_rows c) (c_valid c + 1))).
Proof. exact increment_spec. Qed.
Print Assumptions c14_increment.
(** [from_all_valid] keeps 0 to 2047 rows and panics above, except that multiples of 65536 are dropped first. *)
Theorem c14_from_all_valid : forall n,
  counts_all_valid n = if n mod 65536 <? 2048 then Ok (mk_counts (n mod 65536) (n mod 65536)) else Panic.
Proof. exact counts_all_valid_spec. Qed.
Print Assumptions c14_from_all_valid.
Theorem c14_from_all_valid_refuted : exists n c, counts_all_valid n = Ok c /\ c_rows c <> n.
Proof. exact counts_all_valid_truncates. Qed.
Print Assumptions c14_from_all_valid_refuted.
Example c14_example : counts_of 0x04C026 = mk_counts 38 38 /\ counts_code (mk_counts 38 38) = 0x04C026.
Proof. split; reflexivity. Qed.

(** C15 *)
Theorem c15_last_row : forall c,
  match last_row_index c with
  | None => c_rows c = 0
  | Some (g, i) => i < 16 /\ c_rows c = 16 * g + i + 1
  end.
Proof. exact last_row_index_rel. Qed.
Print Assumptions c15_last_row.
Theorem c15_groups : forall c g, num_row_groups c <= g <-> c_rows c <= 16 * g.
Proof. exact num_row_groups_least. Qed.
Print Assumptions c15_groups.
Theorem c15_in_last_group : forall c g i, last_row_index c = Some (g, i) -> num_row_groups c = g + 1.
Proof. exact last_row_in_last_group. Qed.
Print Assumptions c15_in_last_group.
Example c15_example : last_row_index (mk_counts 32 5) = Some (1, 15) /\ last_row_index (mk_counts 33 5) = Some (2, 0).
Proof. split; reflexivity. Qed.

(** C16 *)
Theorem c16_pack_unpack : forall idx f, idx < 0x3FFFFFF ->
  (f < 8 <-> exists e, index_entry_new idx f = Some e) /\
  forall e, index_entry_new idx f = Some e ->
    e < 2 ^ 32 /\ index_entry_page e = Some idx /\ index_entry_flags e = f /\ index_entry_is_empty e = false.
Proof. exact index_entry_ok. Qed.
Print Assumptions c16_pack_unpack.
Theorem c16_unpack_pack : forall e idx, e < 2 ^ 32 -> index_entry_page e = Some idx ->
  idx < 0x3FFFFFF /\ index_entry_new idx (index_entry_flags e) = Some e /\ index_entry_is_empty e = false.
Proof. exact index_entry_decode. Qed.
Print Assumptions c16_unpack_pack.
(** The empty marker. *)
Theorem c16_empty : index_entry_is_empty index_entry_empty = true /\ index_entry_page index_entry_empty = None.
Proof. exact index_entry_empty_spec. Qed.
Print Assumptions c16_empty.
(** Printing an entry: panics for the entries above the empty marker. *)
Theorem c16_debug : forall e, index_entry_debug_panics e = true <-> 0x1FFFFFF8 < e.
Proof. exact index_entry_debug. Qed.
Print Assumptions c16_debug.
(** A page index that was read from a file is not validated: above 2^29 its high bits are lost. *)
Theorem c16_unvalidated_refuted : exists idx e, idx < 2 ^ 32 /\ index_entry_new idx 0 = Some e /\ index_entry_page e <> Some idx.
Proof. exact index_entry_unvalidated. Qed.
Print Assumptions c16_unvalidated_refuted.
Example c16_example : index_entry_new 5 3 = Some 43 /\ index_entry_page 43 = Some 5 /\ index_entry_flags 43 = 3.
Proof. repeat split. Qed.

(** C34 *)
Theorem c34_no_overflow : forall b idx ps, is_u32 idx -> is_u32 ps ->
  page_offset b idx ps = Ok (idx * ps) /\ idx * ps < 2 ^ 64.
Proof. exact page_offset_ok. Qed.
Print Assumptions c34_no_overflow.
Example c34_example : page_offset Debug 0xFFFFFFFF 0xFFFFFFFF = Ok 0xFFFFFFFE00000001.
Proof. reflexivity. Qed.
