(** * Property C110: the life of a database file *)
From Coq Require Import NArith ZArith List Bool Lia.
From Coq Require Import ZifyBool ZifyNat ZifyN.
From Verif Require Import Base BaseFacts Segs Str StrFacts StrGood Schema SchemaFacts Oa OaFacts OaSpec Rows RowFacts RowSpec Page BitFacts PageFacts PageRw PageSpec Alloc AllocFacts AllocSpec
  Db DbFacts DbFlush DbFresh Reread Progress Insert Session Revise Relink PropAlloc PropSession PropRevise Cut PropCut PropRelink CutLink PropCutLink Append PropAppend Life.
Import ListNotations.
Open Scope N_scope.

(** Programs that save, that stop without saving, or whose last save is interrupted, and appended pages, in any order and any number: afterwards the file can be opened, and its header and
    pages are those that follow from the events one after the other. *)
Theorem c110_history : forall b k io d G A l io',
  bytes_ok io -> len io < 2 ^ 64 - 1 -> db_open io k = DOk d -> 28 + 16 * len (dh_tables (db_header d)) <= dh_page_size (db_header d) ->
  (forall i s, A i = Some s -> exists p, good_page b d (G i) i p /\ like s p) -> history_ok b k G (db_header d, A) l -> history b k io l io' ->
  let h' := fst (history_work (db_header d, A) l) in let A' := snd (history_work (db_header d, A) l) in
  exists d', db_open io' k = DOk d' /\ db_header d' = h' /\ stores b d' G A' /\
    forall r i t q, find_table (PT r) h' = Some (i, t) -> path A' (tb_last t) (tb_first t) q -> forallb (is_variant r) (flat_map (shelf_rows A') q) = true -> shown b k r io' (flat_map (shelf_rows A') q).
Proof.
  intros b k io d G A l io' HB HL HO HP HA HW HX h' A'. pose proof (open_stores b io k d G A HB HL HO HP HA) as HST. destruct (history_stores b k io l io' HX d G (db_header d, A) HO HST eq_refl HW) as (d' & O1 & O2 & O3).
  fold A' in O2. fold h' in O3. exists d'. split; [exact O1|]. split; [exact O3|]. split; [exact O2|]. intros r i t q HT HPA HV. rewrite <- O3 in HT. destruct (stores_rows b d' G A' r i t q O2 HT HPA HV) as (rows & R1 & R2). exists d', rows. now repeat split.
Qed.
Print Assumptions c110_history.
(** Each of them is possible. *)
Theorem c110_run : forall b k io d G A l,
  bytes_ok io -> len io < 2 ^ 64 - 1 -> db_open io k = DOk d -> 28 + 16 * len (dh_tables (db_header d)) <= dh_page_size (db_header d) -> dh_page_size (db_header d) <= 4096 ->
  (forall i s, A i = Some s -> exists p, good_page b d (G i) i p /\ like s p) -> history_ok b k G (db_header d, A) l -> exists io', history b k io l io'.
Proof. intros b k io d G A l HB HL HO HP H4 HA HW. apply (history_runs b k G l io d (db_header d, A)); try easy. now apply (open_stores b io k). Qed.
Print Assumptions c110_run.
(** A table that no event touches keeps its rows, whatever happens to the other tables: no program works on its pages or changes its place in the header, and no save stops within one of
    its pages.  Saves may stop anywhere else. *)
Theorem c110_spared : forall b k io d G A l io' r i t q,
  bytes_ok io -> len io < 2 ^ 64 - 1 -> db_open io k = DOk d -> 28 + 16 * len (dh_tables (db_header d)) <= dh_page_size (db_header d) ->
  (forall i s, A i = Some s -> exists p, good_page b d (G i) i p /\ like s p) -> history_ok b k G (db_header d, A) l -> history b k io l io' ->
  find_table (PT r) (db_header d) = Some (i, t) -> path A (tb_last t) (tb_first t) q -> forallb (is_variant r) (flat_map (shelf_rows A) q) = true ->
  Forall (event_spares q (PT r)) l -> shown b k r io' (flat_map (shelf_rows A) q).
Proof.
  intros b k io d G A l io' r i t q HB HL HO HP HA HW HX HT HPA HV HF. pose proof (open_stores b io k d G A HB HL HO HP HA) as HST.
  destruct (history_spared q (PT r) b k io l io' HX d G (db_header d, A) HO HST eq_refl HW HF) as [X1 X2].
  { intros x Hx. cbn [snd]. clear - HPA Hx. induction HPA as [s E|m s l NE E HI HP IH]; destruct Hx as [<-|Hx]; try easy; [now exists s|now exists s|now apply IH]. }
  destruct (c110_history b k io d G A l io' HB HL HO HP HA HW HX) as (d' & _ & _ & _ & O). cbn [fst snd] in X1, X2. unfold table_of in X2. rewrite HT in X2. cbn [option_map snd] in X2.
  destruct (find_table (PT r) (fst (history_work (db_header d, A) l))) as [[i' t']|] eqn:E; [|discriminate]. injection X2 as ->. rewrite <- (rows_eq A (snd (history_work (db_header d, A) l)) q X1) in *.
  apply (O r i' t q E); [now apply (path_eq A)|exact HV].
Qed.
Print Assumptions c110_spared.
(** If the save before had the same header, or one in which only the last byte of the last page of a table was different, then a save that stops within the header page always leaves one of
    the two headers. *)
Theorem c110_header : forall b k io d G A l d1 io',
  bytes_ok io -> len io < 2 ^ 64 - 1 -> db_open io k = DOk d -> 28 + 16 * len (dh_tables (db_header d)) <= dh_page_size (db_header d) ->
  (forall i s, A i = Some s -> exists p, good_page b d (G i) i p /\ like s p) -> tasks_ok b k G (db_header d, A) l -> tasks b d l d1 -> interrupted_header d1 io' ->
  let old := fst (tasks_saved (db_header d, A) (db_header d, A) l) in let new := fst (tasks_work (db_header d, A) l) in
  new = old \/ (exists t m j x, find_table t old = Some (j, x) /\ tb_last x / 256 = m / 256 /\ new = set_last t m old) -> exists w, ends b d1 (EndHeader w) io'.
Proof.
  intros b k io d G A l d1 io' HB HL HO HP HA HW HT HI old new HC. pose proof (open_stores b io k d G A HB HL HO HP HA) as HST. destruct (open_pages _ _ _ HO) as (E1 & E2 & _). rewrite <- E2 in HW. set (st := (db_header d, A)) in *.
  destruct (tasks_stores b d l d1 HT G st HST eq_refl HW) as (D1 & D2 & D3). assert (on_file b d G (fst st) (snd st)) as HD by (split; [easy|]; split; [easy|]; exists d; now rewrite E1, E2).
  pose proof (tasks_on_file b d l d1 HT G st st HST eq_refl HW HD) as HD1. fold old in HD1. fold new in D2. pose proof HD1 as (_ & _ & d0 & G1 & G2 & _). destruct HC as [HC|(t & m & j & x & F1 & F2 & F3)].
  - exists true. split; [exact HI|]. exists d0. split; [exact G1|]. rewrite <- HC, <- D2 in HD1. now apply (header_same b d1 G (snd (tasks_saved st st l))).
  - destruct (header_bytes b d1 G old _ io' HD1) as [B1 B2]; [rewrite D2, F3; unfold set_last; cbn [dh_tables]; now rewrite len_set_last|exact HI|]. rewrite D2, F3 in B2. destruct (set_last_cut t m old j x io' F1 F2 B1 B2) as [H|H].
    + exists false. split; [exact HI|]. exists d0. split; [exact G1|]. now rewrite G2.
    + exists true. split; [exact HI|]. exists d0. split; [exact G1|]. now rewrite D2, F3.
Qed.
Print Assumptions c110_header.

(** ** Example: a page is lost when a save is interrupted, then a page is appended, and the table is extended by this one *)
Definition c110_events : list event := [EProgram c108_tasks1 (EndWithin 2); EProgram [TLabel 1 9 (PT KKey)] EndKilled; EAppend [c109_page] [c109_shelf]; EProgram (c80_tasks 1 3) EndSaved].
Example c110_example_hyp : history_ok Debug DbPlain (fun _ => GGrow) (c80_hdr 1, c80_shelves 1) c110_events.
Proof.
  destruct (c80_example_hyp 1 (or_introl eq_refl)) as (_ & _ & _ & _ & H5). destruct c109_example_hyp as (HC & HGR & HL & _).
  assert (ptype_ok DbPlain (PT KKey)) as HK by (cbn; auto 20). assert (ptype_ok DbPlain (PT KGenre)) as HK2 by (cbn; auto 20).
  unfold c110_events. cbn [history_ok]. split; [|split; [|split; [|split; [|exact I]]]].
  - split; [|cbn [end_ok]; lia]. unfold c108_tasks1. cbn [tasks_ok task_ok]. split; [|split; [|split; [|exact I]]].
    + exists (mk_shelf (PT KKey) 6 112 3 (map snd c18_rows)). split; [reflexivity|]. split; [discriminate|]. split; [reflexivity|]. split; [exact HK|]. now left.
    + exists (mk_shelf (PT KGenre) 9 158 0 []). split; [vm_compute; reflexivity|]. split; [discriminate|]. split; [reflexivity|]. split; [exact HK|]. now right.
    + cbn [acts_ok act_ok]. split; [|exact I]. eexists. cbn [fst snd]. split; [vm_compute; reflexivity|]. right. split; [reflexivity|]. exact H5.
  - split; [|exact I]. cbn [tasks_ok task_ok]. split; [|exact I]. eexists. split; [vm_compute; reflexivity|]. split; [discriminate|]. split; [reflexivity|]. split; [exact HK|]. now left.
  - cbn [event_ok]. cbv zeta. split; [vm_compute; discriminate|]. split; [vm_compute; reflexivity|]. split; [exact HC|]. split; [|exact HL]. intros i p E. now apply (HGR i).
  - split; [|exact I]. unfold c80_tasks. cbn [tasks_ok task_ok]. split; [|split; [|split; [|split; [|exact I]]]].
    + eexists. split; [vm_compute; reflexivity|]. split; [discriminate|]. split; [reflexivity|]. split; [exact HK|]. now left.
    + exists c109_shelf. split; [vm_compute; reflexivity|]. split; [discriminate|]. split; [reflexivity|]. split; [exact HK|]. now right.
    + cbv zeta. split; [|split; [reflexivity|split; [reflexivity|vm_compute; discriminate]]]. unfold dbhdr_ok. do 6 (split; [reflexivity|]). constructor; [split; [exact HK2|repeat split]|]. constructor; [split; [exact HK|repeat split]|constructor].
    + cbn [acts_ok act_ok]. split; [|exact I]. eexists. cbn [fst snd]. split; [vm_compute; reflexivity|]. right. split; [reflexivity|]. exact H5.
Qed.
Example c110_example : (exists io', history Debug DbPlain (c80_io 1) c110_events io') /\
  forall io', history Debug DbPlain (c80_io 1) c110_events io' -> shown Debug DbPlain KKey io' (map snd c18_rows ++ [c18_new]).
Proof.
  destruct (c80_example_hyp 1 (or_introl eq_refl)) as (H1 & H2 & H3 & _). split.
  - apply (c110_run Debug DbPlain (c80_io 1) (c80_open 1) (fun _ => GGrow) (c80_shelves 1)); [exact H1|vm_compute; reflexivity|exact H2|vm_compute; discriminate|vm_compute; discriminate|exact H3|exact c110_example_hyp].
  - intros io' HX. destruct (c110_history Debug DbPlain (c80_io 1) (c80_open 1) (fun _ => GGrow) (c80_shelves 1) c110_events io') as (d' & _ & _ & _ & X);
      [exact H1|vm_compute; reflexivity|exact H2|vm_compute; discriminate|exact H3|exact c110_example_hyp|exact HX|].
    change (map snd c18_rows ++ [c18_new]) with (flat_map (shelf_rows (snd (history_work (c80_hdr 1, c80_shelves 1) c110_events))) [1; 3]). apply (X KKey 1 (mk_table (PT KKey) 9 1 3)); [vm_compute; reflexivity| |vm_compute; reflexivity].
    eapply path_step; [discriminate|vm_compute; reflexivity| |]; cbn [sh_next]; [lia|]. eapply path_last. vm_compute. reflexivity.
Qed.
(** The hypotheses of [c110_spared] hold: the table is on page 1, the save stops within page 2. *)
Definition c110_elsewhere : list event := [EProgram [TLabel 2 8 (PT KGenre)] (EndWithin 2); EAppend [c109_page] [c109_shelf]; EProgram [TLabel 3 8 (PT KGenre)] (EndHeader true)].
Example c110_example_spared : (exists io', history Debug DbPlain (c80_io 1) c110_elsewhere io') /\ forall io', history Debug DbPlain (c80_io 1) c110_elsewhere io' -> shown Debug DbPlain KKey io' (map snd c18_rows).
Proof.
  destruct (c80_example_hyp 1 (or_introl eq_refl)) as (H1 & H2 & H3 & H4 & _). destruct c109_example_hyp as (HC & HGR & HL & _). assert (ptype_ok DbPlain (PT KGenre)) as HK2 by (cbn; auto 20).
  assert (history_ok Debug DbPlain (fun _ => GGrow) (c80_hdr 1, c80_shelves 1) c110_elsewhere) as HW.
  { unfold c110_elsewhere. cbn [history_ok]. split; [|split; [|split; [|exact I]]].
    - split; [|cbn [end_ok]; lia]. cbn [tasks_ok task_ok]. split; [|exact I]. exists (mk_shelf (PT KGenre) 9 158 0 []). split; [vm_compute; reflexivity|]. split; [discriminate|]. split; [reflexivity|]. split; [exact HK2|]. now left.
    - cbn [event_ok]. cbv zeta. split; [vm_compute; discriminate|]. split; [vm_compute; reflexivity|]. split; [exact HC|]. split; [|exact HL]. intros i p E. now apply (HGR i).
    - split; [|exact I]. cbn [tasks_ok task_ok]. split; [|exact I]. exists c109_shelf. split; [vm_compute; reflexivity|]. split; [discriminate|]. split; [reflexivity|]. split; [exact HK2|]. now left. }
  split.
  - apply (c110_run Debug DbPlain (c80_io 1) (c80_open 1) (fun _ => GGrow) (c80_shelves 1)); [exact H1|vm_compute; reflexivity|exact H2|vm_compute; discriminate|vm_compute; discriminate|exact H3|exact HW].
  - intros io' HX. change (map snd c18_rows) with (flat_map (shelf_rows (c80_shelves 1)) [1]). apply (c110_spared Debug DbPlain (c80_io 1) (c80_open 1) (fun _ => GGrow) (c80_shelves 1) c110_elsewhere io' KKey 1 (mk_table (PT KKey) 9 1 1) [1]);
      [exact H1|vm_compute; reflexivity|exact H2|vm_compute; discriminate|exact H3|exact HW|exact HX|reflexivity|exact H4|reflexivity|].
    repeat constructor; cbn; intros [E|[]]; discriminate.
Qed.
