(** * Property theorems C73: dumping a database *)
From Coq Require Import NArith List Bool Lia.
From Coq Require Import ZifyBool ZifyNat ZifyN.
From Verif Require Import Base BaseFacts Segs Str Schema Oa Rows Page Db DbFacts DbFlush DbFresh Writable Dump DumpFacts AllocFacts PropDb.
Import ListNotations.
Open Scope N_scope.

(** C73.  The command fails if the header cannot be read.  Otherwise, it shows the header and then one segment for each table, whatever the other tables
    contain; it ends successfully unless a segment ends in a panic, in which case this is the last one. *)
Theorem c73_dump : forall b io k unknown, bytes_ok io ->
  match rd_dbhdr k io 0 with
  | Ok (h, _) => exists segs es (x : bool), dump_pdb b io k unknown = Some (EvHeader h :: es, if x then DPanic else DOk tt) /\
      len segs = len (dh_tables h) /\ joined segs es x /\
      forall i t, getN (dh_tables h) i = Some t -> exists s, getN segs i = Some s /\ segment b k h io unknown i t s
  | Err e => dump_pdb b io k unknown = Some ([], DErr (DParse e))
  | Panic => dump_pdb b io k unknown = Some ([], DPanic)
  end.
Proof.
  intros b io k unknown HB. unfold dump_pdb. destruct (db_open io k) as [d|e|] eqn:E; pose proof E as E0; unfold db_open in E0.
  - destruct (rd_dbhdr k io 0) as [[h q]| |]; try easy. assert (db_header d = h) as HH by (injection E0 as <-; easy).
    destruct (dump_tables_spec b io k unknown h HB (dh_tables h) 0 d (open_fresh b io k d E) HH) as (segs & es & x & H1 & H2 & H3 & H4); [easy|].
    rewrite HH, H1. exists segs, es, x. split; [easy|]. split; [easy|]. split; [easy|]. exact H4.
  - destruct (rd_dbhdr k io 0) as [[h q]| |]; try easy. now injection E0 as <-.
  - now destruct (rd_dbhdr k io 0) as [[h q]| |].
Qed.
Print Assumptions c73_dump.

(** The segment of a table is determined by the file and the table, and exists. *)
Theorem c73_segment : forall b io k h q unknown i t, bytes_ok io -> rd_dbhdr k io 0 = Ok (h, q) ->
  exists s, segment b k h io unknown i t s /\ forall s', segment b k h io unknown i t s' -> s' = s.
Proof.
  intros b io k h q unknown i t HB HR.
  assert (db_open io k = DOk (mk_db io k h (repeat None (N.to_nat (dh_next h - 1))))) as HO by (unfold db_open; now rewrite HR).
  destruct (segment_exists b io k _ unknown i t HB (open_fresh b io k _ HO)) as [s HS]. cbn [db_header] in HS. exists s. split; [easy|]. intros s' HS'.
  now apply (segment_fun b k h io unknown i t).
Qed.
Print Assumptions c73_segment.

(** It panics exactly if some table that is not skipped leads to a page whose reading panics or that is not printable. *)
Theorem c73_panic : forall b io k h q unknown, bytes_ok io -> rd_dbhdr k io 0 = Ok (h, q) ->
  ((exists es, dump_pdb b io k unknown = Some (es, DPanic)) <->
   exists i t l r, getN (dh_tables h) i = Some t /\ (unknown = true \/ exists rk, tb_type t = PT rk) /\
     table_pages b k h io (tb_last t) 1 (tb_first t) l r /\ (r = DPanic \/ exists p, In p l /\ ~ printable p)).
Proof.
  intros b io k h q unknown HB HR. pose proof (c73_dump b io k unknown HB) as HD. rewrite HR in HD. destruct HD as (segs & es & x & H1 & H2 & H3 & H4). split.
  - intros [es' HE]. rewrite H1 in HE. destruct x; [|easy]. destruct H3 as [(_ & _ & H3)|(l1 & s & l2 & -> & _ & HS & _)]; [easy|].
    assert (exists t, getN (dh_tables h) (len l1) = Some t) as [t HT]. { apply getN_lt_Some. rewrite <- H2, len_app, len_cons. lia. }
    destruct (H4 _ _ HT) as (s' & G1 & G2). rewrite getN_app in G1. replace (len l1 <? len l1) with false in G1 by lia. rewrite N.sub_diag, getN_cons in G1. assert (s = s') as <- by (cbn in G1; congruence).
    destruct G2 as [c G1' G2|l r es2 x2 K1 K2 K3]; [easy|]. exists (len l1), t, l, r. split; [easy|]. split; [easy|]. split; [easy|].
    apply (shows_panic l r es2 x2 K3). cbn in HS. now destruct x2.
  - intros (i & t & l & r & HT & HU & HP & HX). destruct (H4 _ _ HT) as (s & G1 & G2). assert (snd s = true) as HS.
    { destruct G2 as [c G2 G3|l' r' es2 x2 K1 K2 K3]; [destruct HU as [HU|[rk HU]]; congruence|].
      destruct (table_pages_fun _ _ _ _ _ _ _ _ _ HP _ _ K2) as [-> ->]. apply (shows_panic _ _ _ _ K3) in HX. now subst x2. }
    destruct H3 as [(H3 & _)|(l1 & s' & l2 & _ & _ & _ & _ & ->)]; [|eauto].
    exfalso. rewrite Forall_forall in H3. assert (In s segs) as HI by (apply in_getN; now exists i). specialize (H3 s HI). unfold ends_well in H3. congruence.
Qed.
Print Assumptions c73_panic.

(** A table that cannot be read to its end gives a message and the pages before, and the command goes on and succeeds. *)
Definition ex_broken_header : dbhdr := mk_dbhdr 100 4 4 0 7 [mk_table (PT KKey) 4 2 3; mk_table (PTUnknown 77) 4 9 9; mk_table (PT KGenre) 4 3 1; mk_table (PT KKey) 4 1 3].
Definition ex_broken : list N := match flush Debug (mk_db ex_io DbPlain ex_broken_header [None; None; None]) with DOk d => db_io d | _ => [] end.
Example c73_example : exists p1 p2, dump_pdb Release ex_broken DbPlain false = Some (
  EvHeader ex_broken_header ::
  [EvTable 0 (PT KKey); EvError 0 (DParse EBadMagic)] ++
  [EvTable 1 (PTUnknown 77); EvSkip] ++
  (EvTable 2 (PT KGenre) :: page_lines p2 ++ [EvError 2 (DPageOrder 3)]) ++
  (EvTable 3 (PT KKey) :: page_lines p1 ++ page_lines p2), DOk tt) /\ map snd ex_rows = rows_of_page p2.
Proof.
  exists ex_index, (mk_page ex_phdr (PData (mk_dcontent (dc_header ex_content) [mk_rgroup ([2; 0; 2; 0; 16901] ++ repeat 65535 8 ++ [24; 12; 0]) 5 4] ex_rows))).
  split; vm_compute; reflexivity.
Qed.

(** A database whose tables can be read without errors but not dumped: an entry of its index page is neither empty nor valid. *)
Definition ex_bad_index : page := mk_page (mk_phdr 1 (PT KKey) 3 9 0 (mk_counts 0 0) 0x64 0 0) (PIndex (mk_icontent (mk_ihdr 0x1fff 0x1fff 1 1 3 2 2) [16; 0xFFFFFFFF])).
Definition ex_bad_io : list N := match flush Debug (mk_db (repeat 255 400) DbPlain ex_header [Some ex_bad_index; None; Some ex_page]) with DOk d => db_io d | _ => [] end.
Theorem c73_panic_refuted : exists io k h q, bytes_ok io /\ rd_dbhdr k io 0 = Ok (h, q) /\
  (exists i t l, getN (dh_tables h) i = Some t /\ table_pages Release k h io (tb_last t) 1 (tb_first t) l (DOk tt)) /\
  exists es, dump_pdb Release io k false = Some (es, DPanic).
Proof.
  exists ex_bad_io, DbPlain, ex_header, 60. split.
  { apply Forall_forall. assert (forallb (fun x => x <? 256) ex_bad_io = true) as H by (vm_compute; reflexivity). rewrite forallb_forall in H.
    intros x HX. specialize (H x HX). now apply N.ltb_lt. }
  split; [vm_compute; reflexivity|]. split; [|eexists; vm_compute; reflexivity].
  exists 1, ex_table, [ex_bad_index; mk_page ex_phdr (PData (mk_dcontent (dc_header ex_content) [mk_rgroup ([2; 0; 2; 0; 16901] ++ repeat 65535 8 ++ [24; 12; 0]) 5 4] ex_rows))].
  split; [reflexivity|]. eapply tp_next; [easy|easy|vm_compute; reflexivity|easy|].
  eapply tp_last; [easy|easy|vm_compute; reflexivity].
Qed.
Print Assumptions c73_panic_refuted.
