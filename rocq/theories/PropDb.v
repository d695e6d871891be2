(** * Properties C25 to C33: databases *)
From Coq Require Import NArith List Bool Sorted Lia.
From Verif Require Import Base BaseFacts Segs Utf Str StrFacts StrGood Schema SchemaFacts EnumFacts Oa OaFacts OaSpec Rows RowFacts RowSpec
  Page BitFacts PageFacts PageRw PageSpec IndexSpec AllocFacts Db DbFacts DbFlush DbFresh.
Import ListNotations.
Open Scope N_scope.

(** The database of the examples: page 1 is an index page, page 2 is not part of the table and was never loaded, page 3 has two
    rows. *)
Definition ex_header : dbhdr := mk_dbhdr 100 2 4 0 7 [mk_table (PT KGenre) 9 2 1; mk_table (PT KKey) 4 1 3].
Definition ex_index : page := mk_page (mk_phdr 1 (PT KKey) 3 9 0 (mk_counts 0 0) 0x64 0 0) (PIndex (mk_icontent (mk_ihdr 0x1fff 0x1fff 1 1 3 2 2) [16; 24])).
Definition ex_rows : list (N * row) :=
  [(0, RRow KKey [VInt 1; VInt 1; VStr (DSShort [65; 109])] None); (24, RRow KKey [VInt 2; VInt 2; VStr (DSShort [66])] None)].
Definition ex_content : dcontent := mk_dcontent [VInt 1; VInt 0; VInt 0; VInt 0] [mk_rgroup (repeat 65535 13 ++ [24; 12; 0]) 5 4] ex_rows.
Definition ex_phdr : phdr := mk_phdr 3 (PT KKey) 3 1 0 (mk_counts 3 2) 0x24 12 36.
Definition ex_page : page := mk_page ex_phdr (PData ex_content).
Definition ex_db : database := mk_db (repeat 255 400) DbPlain ex_header [Some ex_index; None; Some ex_page].
Definition ex_io : list N := match flush Debug ex_db with DOk d => db_io d | _ => [] end.
Definition ex_open : database := mk_db ex_io DbPlain ex_header [None; None; None].
Definition ex_table : table := mk_table (PT KKey) 4 1 3.
Lemma ex_open_eq : db_open ex_io DbPlain = DOk ex_open.
Proof. vm_compute. reflexivity. Qed.

(** C25.  [rs] are the results of any number of calls of [next], with arbitrary changes to the pages in between. *)
Theorem c25_bounded : forall b rs d t, trace b d (iter_of d t) rs ->
  Forall (fun i => 1 <= i /\ i <= len (db_pages d)) (yields rs) /\ StronglySorted N.lt (yields rs) /\ len (yields rs) <= len (db_pages d).
Proof. exact yields_bound. Qed.
Print Assumptions c25_bounded.
Theorem c25_collect : forall b d t, snd (collect b d (iter_of d t)) <> None.
Proof. exact collect_total. Qed.
Print Assumptions c25_collect.
(** A cycle: page 3 links to itself and is not the last page. *)
Example c25_cycle : snd (collect Debug ex_open (iter_of ex_open (mk_table (PT KKey) 4 3 2))) = Some (DErr (DPageOrder 3)).
Proof. vm_compute. reflexivity. Qed.

(** C26 *)
Theorem c26_linked : forall b d t l,
  (linked b d (tb_last t) (tb_first t) l -> exists d', collect b d (iter_of d t) = (d', Some (DOk l)) /\ loaded_all d d' l) /\
  (snd (collect b d (iter_of d t)) = Some (DOk l) -> linked b d (tb_last t) (tb_first t) l).
Proof. exact collect_result. Qed.
Print Assumptions c26_linked.
Example c26_example : snd (collect Debug ex_open (iter_of ex_open ex_table)) = Some (DOk [(1, ex_index); (3, mk_page ex_phdr (PData (mk_dcontent (dc_header ex_content)
  [mk_rgroup ([2; 0; 2; 0; 16901] ++ repeat 65535 8 ++ [24; 12; 0]) 5 4] ex_rows)))]).
Proof. vm_compute. reflexivity. Qed.

(** C27 *)
Theorem c27_sticky : forall b d it d1 it1 e d2 rs, iter_next b d it = (d1, it1, DErr e) -> trace b d2 it1 rs -> Forall is_err rs.
Proof. exact sticky. Qed.
Print Assumptions c27_sticky.
Example c27_example :
  let next2 t := let '(d1, it1, r1) := iter_next Debug ex_open (iter_of ex_open t) in (r1, snd (iter_next Debug d1 it1)) in
  next2 (mk_table (PT KKey) 4 9 2) = (DErr (DPageNotPresent 9), DErr (DPageNotPresent 9)) /\
  next2 (mk_table (PT KKey) 4 2 2) = (DErr (DParse EBadMagic), DErr (DPageOrder 2)).
Proof. split; vm_compute; reflexivity. Qed.

(** C28 *)
Theorem c28_present : forall b d i, 1 <= i -> i <= len (db_pages d) -> i < 2 ^ 32 -> dh_page_size (db_header d) < 2 ^ 32 ->
  snd (load_page b d i) =
    match getN (db_pages d) (i - 1) with
    | Some (Some p) => DOk p
    | _ => match rd_page b (rd_dstr b) (dh_page_size (db_header d)) (db_kind d) (db_io d) (i * dh_page_size (db_header d)) with
           | Ok (p, _) => DOk p | Err e => DErr (DParse e) | Panic => DPanic end
    end.
Proof. exact load_lookup. Qed.
Print Assumptions c28_present.
Theorem c28_absent : forall b d i, len (db_pages d) < i -> load_page b d i = (d, DErr (DPageNotPresent i)).
Proof. exact load_page_absent. Qed.
Print Assumptions c28_absent.
Theorem c28_zero : forall b d, len (db_pages d) < 2 ^ 32 ->
  load_page b d 0 = (d, match b with Debug => DPanic | Release => DErr (DPageNotPresent 0) end).
Proof. exact load_page_zero. Qed.
Print Assumptions c28_zero.
(** Loading changes nothing but the entry of this page; the next call returns the same page. *)
Theorem c28_effect : forall b d i p d', 1 <= i -> load_page b d i = (d', DOk p) -> loaded d d' i p /\ load_page b d' i = (d', DOk p).
Proof. exact load_effect. Qed.
Print Assumptions c28_effect.
Theorem c28_failure : forall b d i d' r, 1 <= i -> load_page b d i = (d', r) -> (forall p, r <> DOk p) -> d' = d.
Proof. exact load_page_fail. Qed.
Print Assumptions c28_failure.
Theorem c28_open : forall io k d, bytes_ok io -> db_open io k = DOk d ->
  db_io d = io /\ len (db_pages d) = dh_next (db_header d) - 1 /\ forall i, i < len (db_pages d) -> getN (db_pages d) i = Some None.
Proof. exact open_pages. Qed.
Print Assumptions c28_open.
Example c28_example : snd (load_page Debug ex_open 1) = DOk ex_index /\ snd (load_page Debug ex_db 3) = DOk ex_page /\
  snd (load_page Debug ex_open 4) = DErr (DPageNotPresent 4) /\ snd (load_page Debug ex_open 2) = DErr (DParse EBadMagic).
Proof. repeat split; vm_compute; reflexivity. Qed.

(** C29 *)
Theorem c29_unloaded : forall b d d' i, 28 + 16 * len (dh_tables (db_header d)) <= dh_page_size (db_header d) -> all_inside b d -> flush b d = DOk d' ->
  i < len (db_io d) -> unloaded_byte d i -> getN (db_io d') i = getN (db_io d) i.
Proof. exact flush_frame. Qed.
Print Assumptions c29_unloaded.
Theorem c29_size : forall b d d', 28 + 16 * len (dh_tables (db_header d)) <= dh_page_size (db_header d) -> all_inside b d -> flush b d = DOk d' ->
  (forall k p, getN (db_pages d) k = Some (Some p) -> (k + 2) * dh_page_size (db_header d) <= len (db_io d)) -> dh_page_size (db_header d) <= len (db_io d) ->
  len (db_io d') = len (db_io d).
Proof. exact flush_len. Qed.
Print Assumptions c29_size.
Theorem c29_header : forall b d d', 28 + 16 * len (dh_tables (db_header d)) <= dh_page_size (db_header d) -> all_inside b d -> flush b d = DOk d' ->
  has (db_io d') 0 (dbhdr_enc (db_header d) ++ zeros (dh_page_size (db_header d) - len (dbhdr_enc (db_header d)))).
Proof. exact flush_header. Qed.
Print Assumptions c29_header.

(** C30 *)
Theorem c30_persistent : forall b d d', dbhdr_ok (db_kind d) (db_header d) -> 28 + 16 * len (dh_tables (db_header d)) <= dh_page_size (db_header d) ->
  len (db_pages d) = dh_next (db_header d) - 1 -> all_inside b d -> flush b d = DOk d' ->
  exists d2, db_open (db_io d') (db_kind d) = DOk d2 /\ db_header d2 = db_header d /\ len (db_pages d2) = len (db_pages d) /\
    forall k p, getN (db_pages d) k = Some (Some p) -> page_consistent b (db_kind d) (dh_page_size (db_header d)) p ->
      exists q, snd (load_page b d2 (k + 1)) = DOk q /\ page_reads_as b p q.
Proof. exact flush_reopen. Qed.
Print Assumptions c30_persistent.
Theorem c30_inside : forall b db ps p, page_consistent b db ps p -> page_inside b db ps p.
Proof. exact consistent_inside. Qed.
Print Assumptions c30_inside.
Lemma ex_consistent : page_consistent Debug DbPlain 100 ex_index /\ page_consistent Debug DbPlain 100 ex_page.
Proof.
  split.
  { split; [repeat split; cbn; auto 20|]. split; [reflexivity|]. split; [repeat split; reflexivity|].
    split; [apply Forall_cons; [reflexivity|apply Forall_cons; [reflexivity|apply Forall_nil]]|]. split; [reflexivity|]. split; [easy|reflexivity]. }
  split.
  - unfold dpage_ok. split; [easy|]. split; [easy|]. split.
    { repeat split; cbn; auto 20. }
    split; [reflexivity|]. split; [repeat constructor|]. split; [reflexivity|]. split; [repeat constructor|].
    split; [repeat constructor|]. split; [reflexivity|]. split; [reflexivity|].
    constructor; [|constructor; [|constructor]]; (split; [|reflexivity]); (split; [|exact I]); repeat constructor; cbn; repeat split; repeat constructor; try easy.
  - split; [easy|]. split; [easy|]. cbn [tidy ex_content dc_rows ex_rows].
    split; [easy|]. exists 11. split; [eapply (row_size_fits Debug (fun _ => True)); [repeat constructor|exact I|eexists _, _; split; reflexivity]|].
    split; [easy|]. exists 10. split; [eapply (row_size_fits Debug (fun _ => True)); [repeat constructor|exact I|eexists _, _; split; reflexivity]|].
    vm_compute. discriminate.
Qed.
Example c30_example_hyp : dbhdr_ok DbPlain ex_header /\ all_inside Debug ex_db /\ exists d', flush Debug ex_db = DOk d'.
Proof.
  split.
  { repeat (split; [reflexivity|]). apply Forall_cons; [|apply Forall_cons; [|apply Forall_nil]]; (split; [cbn; auto 20|]); repeat split. }
  split; [|eexists; vm_compute; reflexivity].
  intros k p H. apply consistent_inside. assert (In (Some p) (db_pages ex_db)) as HI by (apply in_getN; now exists k).
  destruct HI as [HI|[HI|[HI|[]]]]; try easy; injection HI as <-; apply ex_consistent.
Qed.
Example c30_example : snd (load_page Debug ex_open 1) = DOk ex_index /\ hasb ex_io 200 (repeat 255 100) = true /\ len ex_io = 400.
Proof. repeat split; vm_compute; reflexivity. Qed.

(** C31.  [only_read]: opened, then pages were loaded, iterated over, or their rows iterated over. *)
Theorem c31_unmodified : forall b io k d, bytes_ok io -> len io < 2 ^ 64 - 1 -> only_read b io k d ->
  28 + 16 * len (dh_tables (db_header d)) <= dh_page_size (db_header d) -> 40 <= dh_page_size (db_header d) ->
  (forall j p, getN (db_pages d) j = Some (Some p) -> canonical_page b k (dh_page_size (db_header d)) io ((j + 1) * dh_page_size (db_header d))) ->
  exists d', flush b d = DOk d' /\ db_io d' = write_at io 0 (dbhdr_enc (db_header d) ++ zeros (dh_page_size (db_header d) - len (dbhdr_enc (db_header d)))) /\
    (db_io d' = io <->
     has io (28 + 16 * len (dh_tables (db_header d))) (zeros (dh_page_size (db_header d) - (28 + 16 * len (dh_tables (db_header d)))))).
Proof. exact unmodified_flush. Qed.
Print Assumptions c31_unmodified.
Example c31_example : bytes_ok ex_io /\ only_read Debug ex_io DbPlain (fst (collect Debug ex_open (iter_of ex_open ex_table))) /\
  canonical_page Debug DbPlain 100 ex_io 100 /\ canonical_page Debug DbPlain 100 ex_io 300 /\
  exists d', flush Debug (fst (collect Debug ex_open (iter_of ex_open ex_table))) = DOk d' /\ db_io d' = ex_io.
Proof.
  split. { apply Forall_forall. assert (forallb (fun x => x <? 256) ex_io = true) as H by (vm_compute; reflexivity). rewrite forallb_forall in H.
    intros x HX. specialize (H x HX). now apply N.ltb_lt. }
  split. { apply or_iter, or_open, ex_open_eq. }
  split. { unfold canonical_page. remember (rd_page Debug (rd_dstr_strict Debug) 100 DbPlain ex_io 100) as r eqn:E. vm_compute in E. subst r. cbn [pg_content].
    split; [easy|]. split; [easy|]. split; [easy|]. apply hasb_has. vm_compute. reflexivity. }
  split. { unfold canonical_page. remember (rd_page Debug (rd_dstr_strict Debug) 100 DbPlain ex_io 300) as r eqn:E. vm_compute in E. subst r. easy. }
  eexists. split; vm_compute; reflexivity.
Qed.

(** C32.  [visits] are the first pages of the chain.  In memory, the rows have the type of their page; each page that is read is like
    that. *)
Theorem c32_panics : forall b k d i t l, db_typed d -> find_table (PT k) (db_header d) = Some (i, t) -> visits b d (tb_last t) (tb_first t) l ->
  (exists j p, In (j, p) l /\ rows_of_page p <> [] /\ ph_type (pg_header p) <> PT k) -> snd (iter_rows b k d) = Some DPanic.
Proof. exact iter_rows_typed. Qed.
Print Assumptions c32_panics.
Theorem c32_good : forall b k d i t l, db_typed d -> find_table (PT k) (db_header d) = Some (i, t) -> linked b d (tb_last t) (tb_first t) l ->
  (forall j p, In (j, p) l -> rows_of_page p <> [] -> ph_type (pg_header p) = PT k) ->
  snd (iter_rows b k d) = Some (DOk (flat_map (fun x => rows_of_page (snd x)) l)).
Proof. exact iter_rows_good. Qed.
Print Assumptions c32_good.
Theorem c32_typed : forall b d i p, read_page b d i = DOk p -> page_typed p.
Proof. exact read_page_typed. Qed.
Print Assumptions c32_typed.
Theorem c32_open_typed : forall io k d, db_open io k = DOk d -> db_typed d.
Proof. exact open_typed. Qed.
Print Assumptions c32_open_typed.
Example c32_example : snd (iter_rows Debug KKey ex_open) = Some (DOk (map snd ex_rows)) /\
  let h := mk_dbhdr 100 1 4 0 7 [mk_table (PT KLabel) 4 1 3] in
  snd (iter_rows Debug KLabel (mk_db ex_io DbPlain h [None; None; None])) = Some DPanic.
Proof. split; vm_compute; reflexivity. Qed.

(** C33 *)
Theorem c33_first : forall t h i x, find_table t h = Some (i, x) <->
  getN (dh_tables h) i = Some x /\ tb_type x = t /\ forall j y, j < i -> getN (dh_tables h) j = Some y -> tb_type y <> t.
Proof. exact find_table_some. Qed.
Print Assumptions c33_first.
Theorem c33_none : forall t h, find_table t h = None <-> forall x, In x (dh_tables h) -> tb_type x <> t.
Proof. exact find_table_none. Qed.
Print Assumptions c33_none.
Theorem c33_iter : forall t d, (exists i x, find_table t (db_header d) = Some (i, x) /\ iter_pages d t = DOk (iter_of d x)) \/
  (forall x, In x (dh_tables (db_header d)) -> tb_type x <> t) /\ iter_pages d t = DErr (DTableType t).
Proof. exact find_page_error. Qed.
Print Assumptions c33_iter.
Example c33_example : find_table (PT KKey) ex_header = Some (1, ex_table) /\ find_table (PTUnknown 77) ex_header = None.
Proof. split; reflexivity. Qed.
