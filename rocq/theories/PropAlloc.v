(** * Properties C18 to C21: allocation of rows *)
From Coq Require Import NArith List Bool Sorted Lia.
From Verif Require Import Base BaseFacts Segs Utf Str StrFacts StrGood Schema SchemaFacts EnumFacts Oa OaFacts OaSpec Rows RowFacts RowSpec
  Page BitFacts PageFacts PageRw PageSpec Alloc AllocFacts AllocSpec.
Import ListNotations.
Open Scope N_scope.

(** C18: the offset, the reserved size and the space that is left.  [used], [free], the 4 bytes for each group and the 2
    bytes for each row always add up to the same number, so [free] is never reduced below zero. *)
Theorem c18_accounting : forall b n h c p' t,
  (b = Debug \/ n <= 65528) -> n < 65536 -> ph_used h + ph_free h < 65536 ->
  len (dc_groups c) = (c_rows (ph_counts h) + 15) / 16 -> Forall rgroup_ok (dc_groups c) ->
  alloc_row b n (mk_page h (PData c)) = Ok (p', Some t) ->
  exists h' c' size, p' = mk_page h' (PData c') /\ least_multiple 4 n size /\
    tk_offset t = ph_used h /\ ph_used h' = ph_used h + size /\
    c_rows (ph_counts h') = c_rows (ph_counts h) + 1 /\ len (dc_groups c') = (c_rows (ph_counts h') + 15) / 16 /\
    ph_used h' + ph_free h' + (4 * len (dc_groups c') + 2 * c_rows (ph_counts h')) =
      ph_used h + ph_free h + (4 * len (dc_groups c) + 2 * c_rows (ph_counts h)) /\
    c_valid (ph_counts h') = c_valid (ph_counts h) /\ same_rest h h' /\ dc_header c' = dc_header c /\ dc_rows c' = dc_rows c.
Proof. exact alloc_accounts. Qed.
Print Assumptions c18_accounting.

Definition c18_header : phdr := mk_phdr 5 (PT KKey) 6 1 0 (mk_counts 3 2) 0x24 112 36.
Definition c18_rows : list (N * row) :=
  [(0, RRow KKey [VInt 1; VInt 1; VStr (DSShort [65; 109])] None); (24, RRow KKey [VInt 2; VInt 2; VStr (DSShort [66])] None)].
Definition c18_content : dcontent :=
  mk_dcontent [VInt 1; VInt 0; VInt 0; VInt 0] [mk_rgroup (repeat 0 13 ++ [24; 12; 0]) 5 4] c18_rows.
Definition c18_new : row := RRow KKey [VInt 9; VInt 9; VStr (DSShort [70; 109])] None.
Example c18_example : exists p', alloc_row Release 10 (mk_page c18_header (PData c18_content)) = Ok (p', Some (mk_ticket 36 0 3)) /\
  ph_used (pg_header p') = 48 /\ ph_free (pg_header p') = 98.
Proof. eexists. split; [vm_compute; reflexivity|]. split; reflexivity. Qed.

(** C19.  [alloc_ok]: a consistent page whose rows are disjoint and end before [used]; the operations are allocations of
    any size up to 65528, used for rows that fit or dropped.  Afterwards the page is consistent and tidy (rows inside
    the heap, disjoint, in front of the footer), all old rows are still there, and it reads back after writing. *)
Theorem c19_run : forall b Q db ps ops h c p',
  alloc_ok b Q db ps h c -> Forall (op_ok b Q (ph_type h)) ops -> run b ops (mk_page h (PData c)) = Ok p' ->
  exists h' c' new, p' = mk_page h' (PData c') /\ alloc_ok b Q db ps h' c' /\ extends (mk_page h (PData c)) p' new /\
    (forall k r, In (k, r) new -> exists n, In (n, Some r) ops).
Proof. exact run_ok. Qed.
Print Assumptions c19_run.
Theorem c19_write_read : forall b db ps ops h c p',
  alloc_ok b dstr_good db ps h c -> Forall (op_ok b dstr_good (ph_type h)) ops -> run b ops (mk_page h (PData c)) = Ok p' ->
  exists h' c' new, p' = mk_page h' (PData c') /\ dpage_ok dstr_good db ps h' c' /\ page_tidy b ps c' /\ extends (mk_page h (PData c)) p' new /\
    (forall k r, map_get k (dc_rows c) = Some r -> map_get k (dc_rows c') = Some r) /\
    forall buf pos buf' q, page_write b ps p' (buf, pos) = Ok (buf', q) ->
      q = pos + ps /\ exists p, rd_page b (rd_dstr b) ps db buf' pos = Ok (p, pos + ps) /\ reads_as b h' c' p.
Proof. exact run_tidy. Qed.
Print Assumptions c19_write_read.
(** Exactly which rows are added by one operation: the row, if there is room. *)
Theorem c19_step : forall b Q db ps h c n r p',
  alloc_ok b Q db ps h c -> op_ok b Q (ph_type h) (n, r) -> step b n r (mk_page h (PData c)) = Ok p' ->
  exists h' c' new, p' = mk_page h' (PData c') /\ alloc_ok b Q db ps h' c' /\ extends (mk_page h (PData c)) p' new /\
    map snd new = match r with Some r => if ph_free h <? up4 n + 6 then [] else [r] | None => [] end.
Proof. exact step_ok. Qed.
Print Assumptions c19_step.
(** The predicted size of a row (C13) is enough. *)
Theorem c19_predicted_size : forall b r ty bs p,
  row_ok dstr_good r -> row_calc r -> r <> RUnknown -> row_ptype_ok ty r -> row_write b r ([], 0) = Ok (bs, p) -> len bs < 65536 ->
  exists n, row_heap b r = Ok n /\ insertable b dstr_good ty n r.
Proof. exact heap_insertable. Qed.
Print Assumptions c19_predicted_size.

Lemma c19_example_ok : alloc_ok Debug dstr_good DbPlain 198 c18_header c18_content.
Proof.
  unfold alloc_ok. split; [|split; [easy|split; [reflexivity|split; [|split]]]].
  - unfold dpage_ok. split; [easy|]. split; [easy|]. split.
    { repeat split; cbn; auto 20. }
    split; [reflexivity|]. split; [repeat constructor|]. split; [reflexivity|]. split; [repeat constructor|].
    split; [repeat constructor|]. split; [reflexivity|]. split; [reflexivity|].
    constructor; [|constructor; [|constructor]]; (split; [|reflexivity]); (split; [|exact I]); repeat constructor; cbn; repeat split; repeat constructor; try easy.
  - intros s H. unfold slot_flag in H. cbn [c18_content dc_groups] in H. rewrite getN_cons in H. destruct (s / 16 =? 0) eqn:E.
    + cbn [rg_flags] in H. change 5 with (N.lor (2 ^ 0) (2 ^ 2)) in H. rewrite N.lor_spec, !N.pow2_bits_eqb in H.
      apply N.eqb_eq in E. cbn [c18_header ph_counts c_rows]. assert (s mod 16 < 3).
      { apply orb_true_iff in H as [H|H]; apply N.eqb_eq in H; lia. }
      pose proof (N.div_mod s 16). lia.
    + now rewrite (proj2 (getN_None _ _)) in H by (cbn; lia).
  - cbn [tidy c18_content dc_rows c18_rows].
    split; [easy|]. exists 11. split; [eapply (row_size_fits Debug (fun _ => True)); [repeat constructor|exact I|eexists _, _; split; reflexivity]|].
    split; [easy|]. exists 10. split; [eapply (row_size_fits Debug (fun _ => True)); [repeat constructor|exact I|eexists _, _; split; reflexivity]|].
    vm_compute. discriminate.
  - intros o [<-|[<-|[]]]; vm_compute; reflexivity.
Qed.
Definition c19_ops : list (N * option row) := [(11, Some c18_new); (8, None); (12, Some c18_new); (300, Some c18_new)].
Lemma c19_example_ops : Forall (op_ok Debug dstr_good (PT KKey)) c19_ops.
Proof.
  assert (forall n, 11 <= n -> insertable Debug dstr_good (PT KKey) n c18_new) as H.
  { intros n Hn. split; [lia|]. split; [|split; [reflexivity|]].
    - split; [|exact I]. repeat constructor; cbn; repeat split; repeat constructor; try easy.
    - apply (row_fits_mono _ _ 11); [|pose proof (up4_mod n); lia].
      eapply (row_size_fits Debug (fun _ => True)); [repeat constructor|exact I|eexists _, _; split; reflexivity]. }
  unfold c19_ops. repeat (apply Forall_cons; [split; cbn [fst snd]; [easy|try exact I; now apply H]|]). apply Forall_nil.
Qed.
(** Rows are added at 36 and 56; the last operation is refused. *)
Example c19_example : exists h' gs, run Debug c19_ops (mk_page c18_header (PData c18_content)) =
  Ok (mk_page h' (PData (mk_dcontent (dc_header c18_content) gs (c18_rows ++ [(36, c18_new); (56, c18_new)])))) /\
  gs = [mk_rgroup (repeat 0 10 ++ [56; 48; 36; 24; 12; 0]) 45 4] /\ ph_counts h' = mk_counts 6 4 /\ ph_used h' = 68 /\ ph_free h' = 74.
Proof. eexists _, _. split; [vm_compute; reflexivity|]. repeat split. Qed.

(** C20 *)
Theorem c20_unchanged : forall b n p p', n <= 65528 -> alloc_row b n p = Ok (p', None) -> p' = p.
Proof. exact alloc_refused. Qed.
Print Assumptions c20_unchanged.
(** Exactly when it is refused: always on index pages, otherwise if the rounded size, a group and an offset do not fit. *)
Theorem c20_refused : forall b n p,
  n <= 65528 ->
  (alloc_row b n p = Ok (p, None) <->
    match pg_content p with PIndex _ => True | PData _ => exists size, least_multiple 4 n size /\ ph_free (pg_header p) < size + 6 end).
Proof. exact alloc_refused_iff. Qed.
Print Assumptions c20_refused.
Example c20_example : alloc_row Debug 107 (mk_page c18_header (PData c18_content)) = Ok (mk_page c18_header (PData c18_content), None) /\
  exists p' t, alloc_row Debug 104 (mk_page c18_header (PData c18_content)) = Ok (p', Some t).
Proof. split; [reflexivity|]. eexists _, _. vm_compute. reflexivity. Qed.

(** C21 *)
Theorem c21_allocate_panics : forall b Q db ps h c n,
  alloc_ok b Q db ps h c -> n <= 65528 ->
  (alloc_row b n (mk_page h (PData c)) = Panic <-> up4 n + 6 <= ph_free h /\ c_rows (ph_counts h) = 8191) /\
  forall e, alloc_row b n (mk_page h (PData c)) <> Err e.
Proof. exact alloc_panics. Qed.
Print Assumptions c21_allocate_panics.
Theorem c21_insert_panics : forall b Q db ps h c n r p1 t,
  alloc_ok b Q db ps h c -> n <= 65528 -> alloc_row b n (mk_page h (PData c)) = Ok (p1, Some t) ->
  (insert_row t r p1 = Panic <-> c_valid (ph_counts h) = 2047) /\ forall e, insert_row t r p1 <> Err e.
Proof. exact insert_panics. Qed.
Print Assumptions c21_insert_panics.
(** With pages of up to 4096 bytes, the usual size, the counters never overflow. *)
Theorem c21_usual_size : forall b Q db ps ops h c,
  alloc_ok b Q db ps h c -> ps <= 4096 -> Forall (op_ok b Q (ph_type h)) ops ->
  exists p', run b ops (mk_page h (PData c)) = Ok p'.
Proof. exact run_no_panic. Qed.
Print Assumptions c21_usual_size.
Theorem c21_oversize_debug : forall h c n, 65528 < n -> n < 65536 -> alloc_row Debug n (mk_page h (PData c)) = Panic.
Proof. exact alloc_big_debug. Qed.
Print Assumptions c21_oversize_debug.
(** Without overflow checks it succeeds on every page with six free bytes, although no page has that much space. *)
Theorem c21_oversize_release : forall Q db ps h c n,
  alloc_ok Release Q db ps h c -> 65528 < n -> n < 65536 -> 6 <= ph_free h -> c_rows (ph_counts h) < 8191 ->
  exists p' t, alloc_row Release n (mk_page h (PData c)) = Ok (p', Some t).
Proof. exact alloc_big_release. Qed.
Print Assumptions c21_oversize_release.
Theorem c21_zero_size : forall b Q db ps h c r p1 n p2 t r2,
  alloc_ok b Q db ps h c -> 6 <= ph_free h -> step b 0 (Some r) (mk_page h (PData c)) = Ok p1 -> n <= 65528 ->
  alloc_row b n p1 = Ok (p2, Some t) -> insert_row t r2 p2 = Panic.
Proof. exact zero_collides. Qed.
Print Assumptions c21_zero_size.
(** The used space shrinks, so the next row would overwrite present ones. *)
Example c21_oversize_example : exists p', alloc_row Release 65530 (mk_page c18_header (PData c18_content)) = Ok (p', Some (mk_ticket 36 0 3)) /\
  ph_used (pg_header p') = 32.
Proof. eexists. split; vm_compute; reflexivity. Qed.
Example c21_zero_example : exists p1, step Release 0 (Some c18_new) (mk_page c18_header (PData c18_content)) = Ok p1 /\
  step Release 12 (Some c18_new) p1 = Panic.
Proof. eexists. split; vm_compute; reflexivity. Qed.
