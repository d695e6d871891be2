(** * Properties C17, C22 to C24: pages *)
From Coq Require Import NArith List Bool Sorted Lia.
From Verif Require Import Base BaseFacts Segs Utf Str StrFacts StrGood Schema SchemaFacts EnumFacts Oa OaFacts OaSpec Rows RowFacts RowSpec
  Page BitFacts PageFacts PageRw PageSpec IndexSpec.
Import ListNotations.
Open Scope N_scope.

(** C17: the size of a written index page; it is exactly one page iff the entry count is right and 4 divides the page size. *)
Theorem c17_size : forall db b ps h c buf pos buf' p',
  80 <= ps -> phdr_ok db h -> ihdr_ok (ic_header c) -> page_write b ps (mk_page h (PIndex c)) (buf, pos) = Ok (buf', p') ->
  p' = pos + 80 + 4 * len (ic_entries c) + 4 * ((ps - 80) / 4 - ih_num (ic_header c)) /\
  (p' = pos + ps <-> len (ic_entries c) = ih_num (ic_header c) /\ ps mod 4 = 0).
Proof. exact index_page_size. Qed.
Print Assumptions c17_size.
(** It panics iff the entries do not fit, and never returns an error. *)
Theorem c17_panic : forall db b ps h c buf pos,
  80 <= ps -> phdr_ok db h -> ihdr_ok (ic_header c) ->
  (page_write b ps (mk_page h (PIndex c)) (buf, pos) = Panic <-> (ps - 80) / 4 < ih_num (ic_header c)) /\
  forall e, page_write b ps (mk_page h (PIndex c)) (buf, pos) <> Err e.
Proof. exact index_page_panic. Qed.
Print Assumptions c17_panic.
Theorem c17_write_read : forall b db ps h c buf pos buf' p',
  80 <= ps -> phdr_ok db h -> is_index_page (ph_flags h) = true -> ihdr_ok (ic_header c) -> Forall is_u32 (ic_entries c) ->
  len (ic_entries c) = ih_num (ic_header c) -> page_write b ps (mk_page h (PIndex c)) (buf, pos) = Ok (buf', p') ->
  rd_page b (rd_dstr b) ps db buf' pos = Ok (mk_page h (PIndex c), pos + 60 + 4 * len (ic_entries c)).
Proof. exact index_page_write_read. Qed.
Print Assumptions c17_write_read.
(** Only the bytes between the old and the new position are written. *)
Theorem c17_frame : forall db b ps h c buf pos buf' p',
  80 <= ps -> phdr_ok db h -> ihdr_ok (ic_header c) -> page_write b ps (mk_page h (PIndex c)) (buf, pos) = Ok (buf', p') ->
  (forall i, i < len buf -> i < pos \/ p' <= i -> getN buf' i = getN buf i) /\ (p' <= len buf -> len buf' = len buf).
Proof. exact index_page_frame. Qed.
Print Assumptions c17_frame.
Definition c17_header : phdr := mk_phdr 3 (PT KKey) 4 9 0 (mk_counts 0 0) 0x64 0 0.
Definition c17_content : icontent := mk_icontent (mk_ihdr 0x1fff 0x1fff 1 3 4 2 2) [16; 24].
Example c17_example_hyp : phdr_ok DbPlain c17_header /\ is_index_page (ph_flags c17_header) = true /\ ihdr_ok (ic_header c17_content) /\
  Forall is_u32 (ic_entries c17_content) /\ len (ic_entries c17_content) = ih_num (ic_header c17_content).
Proof. repeat split; repeat constructor; cbn; tauto. Qed.
Example c17_example : exists buf', page_write Debug 100 (mk_page c17_header (PIndex c17_content)) ([7; 7], 1) = Ok (buf', 101) /\ len buf' = 101.
Proof. eexists. split; reflexivity. Qed.

(** C22: a consistent page with rows and footer that do not overlap. *)
Theorem c22_write_read : forall b db ps h c buf pos buf' p',
  dpage_ok dstr_good db ps h c -> page_tidy b ps c ->
  page_write b ps (mk_page h (PData c)) (buf, pos) = Ok (buf', p') ->
  p' = pos + ps /\ exists p, rd_page b (rd_dstr b) ps db buf' pos = Ok (p, pos + ps) /\ reads_as b h c p.
Proof. exact tidy_page_write_read. Qed.
Print Assumptions c22_write_read.
(** Rows in any order and interleaved; the pieces of all rows and groups must be pairwise disjoint. *)
Theorem c22_write_read_disjoint : forall b db ps h c buf pos buf' p' l rows',
  dpage_ok dstr_good db ps h c -> dpage_segs b ps pos h c = Ok (l, rows') -> segs_disj l ->
  page_write b ps (mk_page h (PData c)) (buf, pos) = Ok (buf', p') ->
  p' = pos + ps /\ exists p, rd_page b (rd_dstr b) ps db buf' pos = Ok (p, pos + ps) /\ reads_as b h c p.
Proof. exact dpage_write_read. Qed.
Print Assumptions c22_write_read_disjoint.
(** For rows with computed offsets, the space needed is the number of bytes written. *)
Theorem c22_row_space : forall b Q r n, row_ok Q r -> row_calc r -> row_size b r n -> row_fits b r n.
Proof. exact row_size_fits. Qed.
Print Assumptions c22_row_space.

Definition c22_header : phdr := mk_phdr 5 (PT KKey) 6 1 0 (mk_counts 3 2) 0x24 12 36.
Definition c22_rows : list (N * row) :=
  [(0, RRow KKey [VInt 1; VInt 1; VStr (DSShort [65; 109])] None); (24, RRow KKey [VInt 2; VInt 2; VStr (DSShort [66])] None)].
Definition c22_content : dcontent :=
  mk_dcontent [VInt 1; VInt 0; VInt 0; VInt 0] [mk_rgroup (repeat 0 13 ++ [24; 12; 0]) 5 4] c22_rows.
Lemma c22_example_ok : dpage_ok dstr_good DbPlain 98 c22_header c22_content.
Proof.
  unfold dpage_ok. split; [easy|]. split; [easy|]. split.
  { repeat split; cbn; auto 20. }
  split; [reflexivity|]. split; [repeat constructor|]. split; [reflexivity|]. split; [repeat constructor|].
  split; [repeat constructor|]. split; [reflexivity|]. split; [reflexivity|].
  constructor; [|constructor; [|constructor]]; (split; [|reflexivity]); (split; [|exact I]); repeat constructor; cbn; repeat split; repeat constructor; try easy.
Qed.
Lemma c22_example_tidy : page_tidy Debug 98 c22_content.
Proof.
  split; [easy|]. split; [easy|]. cbn [tidy c22_content dc_rows c22_rows].
  split; [easy|]. exists 11. split; [eapply (row_size_fits Debug (fun _ => True)); [repeat constructor|exact I|eexists _, _; split; reflexivity]|].
  split; [easy|]. exists 10. split; [eapply (row_size_fits Debug (fun _ => True)); [repeat constructor|exact I|eexists _, _; split; reflexivity]|].
  vm_compute. discriminate.
Qed.
(** The unused slots of the group that is read back show the bytes of a row that uses the same space. *)
Example c22_example : exists buf', page_write Debug 98 (mk_page c22_header (PData c22_content)) (repeat 255 200, 98) = Ok (buf', 196) /\
  exists gs, rd_page Debug (rd_dstr Debug) 98 DbPlain buf' 98 = Ok (mk_page c22_header (PData (mk_dcontent (dc_header c22_content) gs c22_rows)), 196) /\
    gs = [mk_rgroup ([65535; 2; 0; 2; 0; 16901] ++ repeat 65535 7 ++ [24; 12; 0]) 5 4].
Proof. eexists. split; [vm_compute; reflexivity|]. eexists. split; [vm_compute; reflexivity|reflexivity]. Qed.
(** Without disjointness it fails: two rows at overlapping offsets. *)
Example c22_overlap :
  let c := mk_dcontent [VInt 1; VInt 0; VInt 0; VInt 0] [mk_rgroup (repeat 0 13 ++ [9; 12; 0]) 5 4]
    [(0, RRow KKey [VInt 1; VInt 1; VStr (DSShort [65; 109])] None); (9, RRow KKey [VInt 2; VInt 2; VStr (DSShort [66])] None)] in
  exists buf' rows', page_write Debug 98 (mk_page c22_header (PData c)) (repeat 255 200, 98) = Ok (buf', 196) /\
    exists gs, rd_page Debug (rd_dstr Debug) 98 DbPlain buf' 98 = Ok (mk_page c22_header (PData (mk_dcontent (dc_header c) gs rows')), 196) /\
    rows' <> dc_rows c.
Proof. eexists _, _. split; [vm_compute; reflexivity|]. eexists. split; [vm_compute; reflexivity|discriminate]. Qed.

(** C23 *)
Theorem c23_data_page : forall b db ps buf pos h c p,
  bytes_ok buf -> len buf < 2 ^ 64 - 1 -> 40 <= ps -> ps < 2 ^ 32 -> pos <= len buf ->
  rd_page b (rd_dstr_strict b) ps db buf pos = Ok (mk_page h (PData c), p) ->
  page_write b ps (mk_page h (PData c)) (buf, pos) = Ok (buf, p).
Proof. exact dpage_read_write_back. Qed.
Print Assumptions c23_data_page.
Theorem c23_index_page : forall b rs db ps buf pos h c p,
  bytes_ok buf -> 80 <= ps -> pos <= len buf -> rd_page b rs ps db buf pos = Ok (mk_page h (PIndex c), p) ->
  ih_num (ic_header c) <= (ps - 80) / 4 ->
  exists buf' p', page_write b ps (mk_page h (PIndex c)) (buf, pos) = Ok (buf', p') /\
    (buf' = buf <-> has buf p (index_tail ps (ih_num (ic_header c)))) /\
    (forall i, i < len buf -> i < p \/ p' <= i -> getN buf' i = getN buf i).
Proof. exact index_page_read_write_back. Qed.
Print Assumptions c23_index_page.
(** The strict reader of strings only makes fewer pages readable. *)
Theorem c23_strict : forall b ps db buf pos r,
  rd_page b (rd_dstr_strict b) ps db buf pos = Ok r -> rd_page b (rd_dstr b) ps db buf pos = Ok r.
Proof. exact page_strict_le. Qed.
Print Assumptions c23_strict.
Example c23_example : exists buf', page_write Debug 98 (mk_page c22_header (PData c22_content)) (repeat 255 200, 98) = Ok (buf', 196) /\
  exists c, rd_page Debug (rd_dstr_strict Debug) 98 DbPlain buf' 98 = Ok (mk_page c22_header (PData c), 196) /\
    page_write Debug 98 (mk_page c22_header (PData c)) (buf', 98) = Ok (buf', 196).
Proof. eexists. split; [vm_compute; reflexivity|]. eexists. split; vm_compute; reflexivity. Qed.
(** An index page with another tail is changed by writing it back. *)
Example c23_index_tail : exists buf', page_write Debug 100 (mk_page c17_header (PIndex c17_content)) ([], 0) = Ok (buf', 100) /\
  rd_page Debug (rd_dstr Debug) 100 DbPlain (buf' ++ [1]) 0 = Ok (mk_page c17_header (PIndex c17_content), 68) /\
  let dirty := takeN 68 buf' ++ repeat 9 32 in
  rd_page Debug (rd_dstr Debug) 100 DbPlain dirty 0 = Ok (mk_page c17_header (PIndex c17_content), 68) /\
  page_write Debug 100 (mk_page c17_header (PIndex c17_content)) (dirty, 0) = Ok (buf', 100).
Proof. eexists. split; [vm_compute; reflexivity|]. split; [vm_compute; reflexivity|]. split; vm_compute; reflexivity. Qed.

(** C24 *)
Theorem c24_outside : forall b Q db ps h c buf pos buf' p',
  dpage_ok Q db ps h c -> page_tidy b ps c -> page_write b ps (mk_page h (PData c)) (buf, pos) = Ok (buf', p') ->
  (forall i, i < len buf -> i < pos \/ pos + ps <= i -> getN buf' i = getN buf i) /\
  (pos + ps <= len buf -> len buf' = len buf).
Proof. exact tidy_page_frame. Qed.
Print Assumptions c24_outside.
(** Inside the heap, in front of the footer, only bytes of present rows change. *)
Theorem c24_inside : forall b Q db ps h c buf pos buf' p' i,
  dpage_ok Q db ps h c -> 36 * len (dc_groups c) <= ps -> page_write b ps (mk_page h (PData c)) (buf, pos) = Ok (buf', p') ->
  i < len buf -> pos + 40 <= i -> i < pos + ps - footer_size (dc_groups c) ->
  (forall o r, In (o, r) (dc_rows c) -> exists n, row_fits b r n /\ (i < pos + 40 + o \/ pos + 40 + o + n <= i)) ->
  getN buf' i = getN buf i.
Proof. exact heap_frame. Qed.
Print Assumptions c24_inside.
Example c24_example : exists buf', page_write Debug 98 (mk_page c22_header (PData c22_content)) (repeat 255 200, 98) = Ok (buf', 196) /\
  getN buf' 97 = Some 255 /\ getN buf' 196 = Some 255 /\ getN buf' (98 + 40 + 12) = Some 255 /\ getN buf' (98 + 40 + 10) = Some 109.
Proof. eexists. split; [vm_compute; reflexivity|]. repeat split; vm_compute; reflexivity. Qed.
