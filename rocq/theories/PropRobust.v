(** * Property theorems C74: damaged files *)
From Coq Require Import NArith ZArith List Bool Lia.
From Coq Require Import ZifyBool ZifyNat ZifyN.
From Verif Require Import Base BaseFacts Segs Str StrFacts Schema SchemaFacts Oa Rows Page PageFacts Anlz AnlzPanic Db DbFacts DbFlush DbFresh RowShape Device DeviceTree Cli CliList Dump DumpFacts Robust PropDb PropDump.
Import ListNotations.
Open Scope N_scope.

(** C74.  Whatever bytes a file has: opening a database never panics; without overflow checks, reading a page or an analysis file does not either. *)
Theorem c74_open : forall io k, db_open io k <> DPanic.
Proof. exact open_no_panic. Qed.
Print Assumptions c74_open.
Theorem c74_page : forall ps k buf pos, bytes_ok buf -> rd_page Release (rd_dstr Release) ps k buf pos <> Panic.
Proof. intros ps k buf pos HB. apply np_page; [now apply np_dstr_release|now left]. Qed.
Print Assumptions c74_page.
Theorem c74_analysis : forall buf pos, rd_anlz Release buf pos <> Panic.
Proof. intros buf pos. apply anlz_release. Qed.
Print Assumptions c74_analysis.

(** The interface of databases: loading any page (also page 0), and any sequence of calls of an iterator, whatever happens to the pages in memory in between. *)
Theorem c74_load_page : forall d i, bytes_ok (db_io d) -> snd (load_page Release d i) <> DPanic.
Proof.
  intros d i HB. unfold load_page. pose proof (wsub_release 64 i 1) as HW.
  assert (forall e, wsub Release 64 i 1 <> Err e) as HE by (intro e; unfold wsub, ovf; now destruct (_ <=? _)).
  destruct (wsub Release 64 i 1) as [p| |]; [|now destruct (HE e)|easy].
  destruct (p <? len (db_pages d)) eqn:E; [|easy]. unfold load_entry.
  assert (exists y, getN (db_pages d) p = Some y) as [y ->] by (apply getN_lt_Some; lia). destruct y as [q|]; [easy|].
  pose proof (read_page_np d i HB) as HR. now destruct (read_page Release d i).
Qed.
Print Assumptions c74_load_page.
Inductive calls (b : build) (io : list N) : database -> piter -> list (dres (option (N * page))) -> Prop :=
| calls_nil d it : calls b io d it []
| calls_cons d it d1 it1 r d2 rs : iter_next b d it = (d1, it1, r) -> db_io d2 = io -> len (db_pages d2) = len (db_pages d1) -> calls b io d2 it1 rs -> calls b io d it (r :: rs).
Theorem c74_iterate : forall d t rs, bytes_ok (db_io d) -> calls Release (db_io d) d (iter_of d t) rs -> ~ In DPanic rs.
Proof.
  intros d t rs HB. pose proof (iter_of_inv d t) as HI. generalize dependent (iter_of d t). remember (db_io d) as io eqn:HO. symmetry in HO. revert d HO.
  induction rs as [|r rs IH]; intros d HO it HI HC; [easy|]. inversion HC as [|? ? d1 it1 ? d2 ? HN H1 H2 HC2]; subst. destruct (iter_next_inv Release d it d1 it1 r HI HN) as [HI1 HL1].
  intros [->|H].
  - apply iter_next_panic in HN as (i & _ & HN); [|easy]. now apply (read_page_np d i).
  - apply (IH d2 H1 it1); [|easy|easy]. unfold it_inv in *. now rewrite H2.
Qed.
Print Assumptions c74_iterate.
(** Collecting the rows of a table panics exactly if the chain of pages leads to a page with rows of another type. *)
Theorem c74_rows : forall d k, bytes_ok (db_io d) -> db_typed d -> (snd (iter_rows Release k d) = Some DPanic <->
  exists i t l j p, find_table (PT k) (db_header d) = Some (i, t) /\ visits Release d (tb_last t) (tb_first t) l /\ In (j, p) l /\
    rows_of_page p <> [] /\ ph_type (pg_header p) <> PT k).
Proof.
  intros d k HB HT. split.
  - unfold iter_rows, iter_pages. destruct (find_table (PT k) (db_header d)) as [[i t]|]; [|easy]. intro H.
    apply (rows_panic Release k _ d (iter_of d t) (tb_first t)) in H; [|apply iter_of_live|reflexivity]. destruct H as [(d' & j & (H1 & _) & _ & H2)|(l & _ & H2 & H3)].
    + exfalso. apply (read_page_np d' j); [now rewrite H1|easy].
    + apply rows_variants in H3 as (j & p & H3 & H4 & H5); [|now apply (visits_typed Release d (tb_last t) _ (tb_first t))]. now exists i, t, l, j, p.
  - intros (i & t & l & j & p & H1 & H2 & H3 & H4 & H5). apply (c32_panics Release k d i t l); try easy. now exists j, p.
Qed.
Print Assumptions c74_rows.
(** The commands: exporting playlists panics only if reading the rows of a table does; dumping exactly if a page is not printable. *)
Theorem c74_export : forall b depth d out canon, db_shaped d -> export b depth d out canon = Some Crash ->
  let d1 := fst (iter_rows b KPlaylistTreeNode d) in let d2 := fst (iter_rows b KPlaylistEntry d1) in
  snd (iter_rows b KPlaylistTreeNode d) = Some DPanic \/ snd (iter_rows b KPlaylistEntry d1) = Some DPanic \/ snd (iter_rows b KTrack d2) = Some DPanic.
Proof.
  intros b depth d out canon HD H d1 d2. assert (db_shaped d1) as HD1 by now apply iter_rows_shaped. assert (db_shaped d2) as HD2 by now apply iter_rows_shaped.
  assert (forall dp m i, child_nodes dp m i <> Some Crash) as HC.
  { clear. induction dp as [|dp IH]; intros m i; cbn [child_nodes]; [easy|]. destruct (mm_get m i) as [ns|]; [|easy].
    induction ns as [|n ns IHn]; cbn [collect_map]; [easy|]. specialize (IH m (nd_id n)). destruct (dstr_into_string (nd_name n)); [|easy].
    destruct (nd_folder n); [destruct (child_nodes dp m (nd_id n)) as [[ch|e|]|]|]; try easy;
      destruct (collect_map _ ns) as [[?|?|]|]; easy. }
  destruct (snd (iter_rows b KPlaylistTreeNode d)) as [[rows1|e|]|] eqn:E1; [|exfalso; unfold export, get_playlists in H; now rewrite E1 in H|now left|exfalso; unfold export, get_playlists in H; now rewrite E1 in H].
  right. destruct (get_playlists_rows b d rows1 HD E1) as (ns & F1 & G1). unfold export in H. rewrite G1 in H. specialize (HC depth (by_parent ns) 0). unfold playlist_tree in H.
  destruct (child_nodes depth (by_parent ns) 0) as [[ts|e|]|]; try easy. fold d1 in H.
  destruct (snd (iter_rows b KPlaylistEntry d1)) as [[rows2|e|]|] eqn:E2; [|exfalso; unfold table_rows in H; now rewrite E2 in H|now left|now apply iter_rows_total in E2].
  right. destruct (table_rows_ok b KPlaylistEntry pentry_of_row d1 rows2 pentry_of_shaped HD1 E2) as (es & G2 & F2). rewrite G2 in H. fold d2 in H.
  destruct (stream_total b KTrack d2) as (l & y & E3 & E4). destruct (stream_values b KTrack track_of_row d2 l y track_of_shaped HD2 E3) as (raw & G3 & F3). unfold track_paths in H. rewrite E3, (decode_rows_of _ _ F3) in H.
  destruct (decode_tracks raw); [|easy]. now destruct y.
Qed.
Print Assumptions c74_export.
Theorem c74_dump : forall io k h q unknown, bytes_ok io -> rd_dbhdr k io 0 = Ok (h, q) ->
  ((exists es, dump_pdb Release io k unknown = Some (es, DPanic)) <->
   exists i t l r p, getN (dh_tables h) i = Some t /\ (unknown = true \/ exists rk, tb_type t = PT rk) /\
     table_pages Release k h io (tb_last t) 1 (tb_first t) l r /\ In p l /\ ~ printable p).
Proof.
  intros io k h q unknown HB HR. rewrite (c73_panic Release io k h q unknown HB HR). split.
  - intros (i & t & l & r & H1 & H2 & H3 & [Er|(p & H4 & H5)]); [|now exists i, t, l, r, p]. exfalso. revert Er. clear - H3 HB.
    induction H3 as [| | |lo i G1 G2 G3| |lo i p q' l r G1 G2 G3 G4 G5 IH]; intro Er; first [easy|now apply c74_page in G3|now apply IH].
  - intros (i & t & l & r & p & H1 & H2 & H3 & H4 & H5). exists i, t, l, r. repeat (split; [easy|]). right. now exists p.
Qed.
Print Assumptions c74_dump.

(** With overflow checks, a page of at least 40 bytes panics only if there is a string with an impossible length somewhere; smaller data pages always do. *)
Theorem c74_checked : forall ps k buf pos, bytes_ok buf -> 40 <= ps -> rd_page Debug (rd_dstr Debug) ps k buf pos = Panic -> exists at_, bad_string buf at_.
Proof.
  intros ps k buf pos HB HP H. destruct (bad_string_search buf HB) as [HS|HS]; [easy|]. exfalso. revert H. apply np_page; [easy|now right].
Qed.
Print Assumptions c74_checked.
Theorem c74_small : forall ps k rs buf pos h p1, rd_phdr k buf pos = Ok (h, p1) -> is_index_page (ph_flags h) = false -> p1 + 8 <= len buf -> ps < 40 ->
  rd_page Debug rs ps k buf pos = Panic.
Proof.
  intros ps k rs buf pos h p1 HH HI HL HP. unfold rd_page. unfold bind at 1. rewrite HH, HI. unfold bind at 1. unfold rd_dcontent. unfold bind at 1.
  assert (exists vs q, rd_fields no_rs dhdr_fields buf p1 = Ok (vs, q)) as (vs & q & ->).
  { unfold dhdr_fields, u16f. destruct (rd_le_total 2 buf p1) as [v1 E1]; [lia|]. destruct (rd_le_total 2 buf (p1 + 2)) as [v2 E2]; [lia|].
    destruct (rd_le_total 2 buf (p1 + 2 + 2)) as [v3 E3]; [lia|]. destruct (rd_le_total 2 buf (p1 + 2 + 2 + 2)) as [v4 E4]; [lia|].
    change (N.of_nat 2) with 2 in *. cbn [rd_fields rd_field]. unfold rd_int, bind, ret. rewrite E1, E2, E3, E4. eauto. }
  unfold bind at 1. unfold lift, page_heap_size, wsub at 1, ovf. destruct (0x20 <=? ps) eqn:E; cbn [res_bind]; [|easy].
  unfold wsub, ovf. replace (8 <=? ps - 32) with false by lia. easy.
Qed.
Print Assumptions c74_small.

(** A file of which every page is rubbish, a table whose pages hold rows of another type, and a string with length 0. *)
Definition ex_rubbish : list N := dbhdr_enc ex_header ++ repeat 255 400.
Example c74_example :
  (exists d : database, db_open ex_rubbish DbPlain = DOk d /\ snd (load_page Release d 0) = DErr (DPageNotPresent 0) /\ snd (load_page Release d 1) = DErr (DParse EBadMagic)) /\
  snd (iter_rows Release KLabel (mk_db ex_io DbPlain (mk_dbhdr 100 1 4 0 7 [mk_table (PT KLabel) 4 1 3]) [None; None; None])) = Some DPanic /\
  bad_string [1] 0 /\ bad_string [0x40; 3; 0; 0] 0 /\ ~ bad_string [3] 0 /\
  rd_dstr Debug [0x40; 3; 0; 0] 0 = Panic /\ rd_dstr Release [0x40; 3; 0; 0] 0 = Err EAssertFail.
Proof.
  split; [eexists; split; [vm_compute; reflexivity|split; vm_compute; reflexivity]|]. split; [vm_compute; reflexivity|].
  split; [now left|]. split; [right; exists 0x40, 3, 0; repeat split; easy|]. split; [|split; vm_compute; reflexivity].
  intros [H|(h & lo & hi & H1 & H2 & _)]; [easy|]. cbn in H1. injection H1 as <-. easy.
Qed.
