(** * Property C104: which bytes of a file programs leave alone *)
From Coq Require Import NArith ZArith List Bool Lia.
From Coq Require Import ZifyBool ZifyNat ZifyN.
From Verif Require Import Base BaseFacts Segs Str StrFacts StrGood Schema SchemaFacts Oa OaFacts OaSpec Rows RowFacts RowSpec Page BitFacts PageFacts PageRw PageSpec IndexSpec Alloc AllocFacts AllocSpec
  Db DbFacts DbFlush DbFresh Reread Progress Insert Session Revise Relink Untouched PropAlloc PropSession PropRevise Cut PropCut PropRelink.
Import ListNotations.
Open Scope N_scope.

(** Programs as in C80.  Every byte behind the header page that lies in a page which no program asked for is the same as before, whatever that page contains; so is every byte behind the last page. *)
Theorem c104_unasked : forall b k io d G A ls io' x,
  bytes_ok io -> len io < 2 ^ 64 - 1 -> db_open io k = DOk d -> 28 + 16 * len (dh_tables (db_header d)) <= dh_page_size (db_header d) ->
  (forall i s, A i = Some s -> exists p, good_page b d (G i) i p /\ like s p) -> tasks_ok b k G (db_header d, A) (concat ls) -> jobs b k io ls io' ->
  dh_page_size (db_header d) <= x -> x < len io -> ~ In (x / dh_page_size (db_header d)) (asked (concat ls)) -> getN io' x = getN io x.
Proof.
  intros b k io d G A ls io' x HB HL HO HP HA HT HJ X1 X2 HN. set (ps := dh_page_size (db_header d)) in *. assert (0 < ps) as H0 by lia.
  assert (stores b d G A) as HS by (now apply (open_stores b io k)). pose proof (N.div_mod' x ps) as HD. pose proof (N.mod_lt x ps) as HM.
  apply (jobs_calm b k io (x / ps) [] ltac:(apply N.div_le_lower_bound; lia) (Forall_nil _) io ls io' HJ d G (db_header d, A) HO HS eq_refl HT); fold ps; try easy; [|nia|nia].
  intro HX. apply HN. unfold altered, asked in *. apply in_flat_map in HX as (a & Ha & HX). apply in_flat_map. exists a. split; [easy|]. destruct a as [P l|j n t|f]; cbn [task_alters task_asks] in *; [|easy|easy].
  apply in_flat_map in HX as (c & Hc & HX). apply in_flat_map. exists c. split; [easy|]. destruct c as [j [|o os]|j f|q f|j m|]; cbn [act_alters act_asks] in *; easy.
Qed.
Print Assumptions c104_unasked.
(** A page that was loaded, but not changed, keeps its bytes too, however often it is saved; for an index page the entries behind the used ones must be as they are written. *)
Theorem c104_looked : forall b k io d G A ls io' i p x,
  bytes_ok io -> len io < 2 ^ 64 - 1 -> db_open io k = DOk d -> 28 + 16 * len (dh_tables (db_header d)) <= dh_page_size (db_header d) ->
  (forall i s, A i = Some s -> exists p, good_page b d (G i) i p /\ like s p) -> tasks_ok b k G (db_header d, A) (concat ls) -> jobs b k io ls io' ->
  good_page b d (G i) i p -> tail_kept (dh_page_size (db_header d)) io i p -> ~ In i (altered (concat ls)) ->
  i * dh_page_size (db_header d) <= x -> x < (i + 1) * dh_page_size (db_header d) -> x < len io -> getN io' x = getN io x.
Proof.
  intros b k io d G A ls io' i p x HB HL HO HP HA HT HJ HG HTL HN X1 X2 X3. set (ps := dh_page_size (db_header d)) in *. pose proof (open_none io k d HO) as [EIO _]. pose proof (open_kind io k d HO) as HK. rewrite <- EIO in HB, HL, HTL.
  destruct (good_steady b d (G i) i p HB HL HG HTL) as (l & HST & HSI). fold ps in HST. assert (stores b d G A) as HS by (apply (open_stores b io k); try easy; now rewrite <- EIO).
  pose proof (good_ready b d (G i) i p l HG HST HSI) as HR. fold ps in HR. rewrite HK, EIO in HR. rewrite EIO in HSI. destruct HG as [H1 _].
  apply (jobs_calm b k io i l H1 HSI io ls io' HJ d G (db_header d, A) HO HS eq_refl HT); fold ps; try easy. 
Qed.
Print Assumptions c104_looked.
(** The header page is that of the last header, filled with zeros. *)
Theorem c104_header : forall b k io d G A ls io',
  bytes_ok io -> len io < 2 ^ 64 - 1 -> db_open io k = DOk d -> 28 + 16 * len (dh_tables (db_header d)) <= dh_page_size (db_header d) ->
  (forall i s, A i = Some s -> exists p, good_page b d (G i) i p /\ like s p) -> tasks_ok b k G (db_header d, A) (concat ls) -> jobs b k io ls io' -> ls <> [] ->
  let h := fst (tasks_work (db_header d, A) (concat ls)) in has io' 0 (dbhdr_enc h ++ zeros (dh_page_size h - len (dbhdr_enc h))).
Proof.
  intros b k io d G A ls io' HB HL HO HP HA HT HJ HN. assert (stores b d G A) as HS by (now apply (open_stores b io k)).
  assert (forall io ls io', jobs b k io ls io' -> forall d st, db_open io k = DOk d -> stores b d G (snd st) -> db_header d = fst st -> tasks_ok b k G st (concat ls) -> ls <> [] ->
    has io' 0 (header_page (fst (tasks_work st (concat ls))))) as HX; [|exact (HX io ls io' HJ d (db_header d, A) HO HS eq_refl HT HN)].
  clear. intros io ls io' H. induction H as [io|io ts io1 ls io2 HS1 HJ IH]; intros d st HO HS HH HA HN; [easy|]. cbn [concat] in HA |- *. apply tasks_ok_app in HA as [A1 A2]. rewrite tasks_work_app.
  destruct (job_stores b k io ts io1 d G st HO HS HH A1 HS1) as (d1 & O1 & O2 & O3). destruct ls as [|t ls]; [|now apply (IH d1)]. inversion HJ; subst. cbn [concat]. change (tasks_work (tasks_work st ts) []) with (tasks_work st ts).
  destruct HS1 as (d0 & d2 & d3 & E0 & HE & HF & <-). rewrite HO in E0. injection E0 as <-. rewrite <- (open_kind io k d HO) in A1. destruct (tasks_stores b d ts d2 HE G st HS HH A1) as ((S1 & _) & S2 & S3). rewrite <- S2.
  pose proof S1 as (_ & _ & S4 & _). apply (flush_header b d2 d3); [exact S4|now apply savable_inside|exact HF].
Qed.
Print Assumptions c104_header.
(** The file is never shortened and never gets longer than its pages; it keeps its length if it has the header page and the pages that were asked for. *)
Theorem c104_length : forall b k io d G A ls io',
  bytes_ok io -> len io < 2 ^ 64 - 1 -> db_open io k = DOk d -> 28 + 16 * len (dh_tables (db_header d)) <= dh_page_size (db_header d) ->
  (forall i s, A i = Some s -> exists p, good_page b d (G i) i p /\ like s p) -> tasks_ok b k G (db_header d, A) (concat ls) -> jobs b k io ls io' ->
  len io <= len io' <= N.max (len io) (N.max 1 (dh_next (db_header d)) * dh_page_size (db_header d)) /\
  (dh_page_size (db_header d) <= len io -> (forall i, In i (asked (concat ls)) -> (i + 1) * dh_page_size (db_header d) <= len io) -> len io' = len io).
Proof.
  intros b k io d G A ls io' HB HL HO HP HA HT HJ. assert (stores b d G A) as HS by (now apply (open_stores b io k)).
  pose proof (jobs_upto b k io ls io' HJ d G (db_header d, A) HO HS eq_refl HT) as X. split; [exact X|].
  intros H1 H2. now apply (jobs_held b k (len io) io ls io' HJ d G (db_header d, A)).
Qed.
Print Assumptions c104_length.

(** ** Example: page 1 has keys, page 2 is empty.  One program inserts a key in page 1, looks at page 2, saves, and changes the header; another one looks at page 2 only. *)
Definition c104_jobs : list (list task) :=
  [[TActs c78_tables [AInsert 1 [(11, Some c18_new)]; AInsert 2 []; ASave]; THeader (set_last (PT KGenre) 8)]; [TActs c78_tables [AInsert 2 []]]].
Example c104_example : exists io', jobs Debug DbPlain (c80_io 1) c104_jobs io' /\ tasks_ok Debug DbPlain (fun _ => GGrow) (db_header (c80_open 1), c80_shelves 1) (concat c104_jobs) /\
  altered (concat c104_jobs) = [1] /\ asked (concat c104_jobs) = [1; 2; 2] /\ len io' = 594 /\ (forall x, 396 <= x -> x < 594 -> getN io' x = getN (c80_io 1) x) /\ takeN 396 io' <> takeN 396 (c80_io 1).
Proof.
  destruct (c80_example_hyp 1 (or_introl eq_refl)) as (H1 & H2 & H3 & H4 & H5). assert (len (c80_io 1) = 594) as HLN by (vm_compute; reflexivity).
  assert (tasks_ok Debug DbPlain (fun _ => GGrow) (db_header (c80_open 1), c80_shelves 1) (concat c104_jobs)) as HT.
  { cbn [concat c104_jobs app tasks_ok]. split; [|split; [|split; [|exact I]]].
    - cbn [task_ok acts_ok fst snd]. split; [|split; [|split; [exact I|exact I]]].
      + exists (mk_shelf (PT KKey) 6 112 3 (map snd c18_rows)). split; [reflexivity|]. right. split; [reflexivity|exact H5].
      + exists (mk_shelf (PT KGenre) 9 158 0 []). split; [reflexivity|]. left. split; [discriminate|reflexivity].
    - cbn [task_ok]. cbv zeta. split; [|split; [reflexivity|split; [reflexivity|vm_compute; discriminate]]].
      split; [reflexivity|]. split; [reflexivity|]. split; [reflexivity|]. split; [reflexivity|]. split; [reflexivity|]. split; [reflexivity|].
      change (dh_tables (set_last (PT KGenre) 8 (fst (db_header (c80_open 1), c80_shelves 1)))) with [mk_table (PT KGenre) 9 7 8; mk_table (PT KKey) 9 1 1]. constructor; [|constructor; [|constructor]]; (split; [cbn; auto 20|now repeat split]).
    - cbn [task_ok acts_ok fst snd]. split; [|exact I]. exists (mk_shelf (PT KGenre) 9 158 0 []). split; [reflexivity|]. left. split; [discriminate|reflexivity]. }
  destruct (c80_run Debug DbPlain (c80_io 1) (c80_open 1) (fun _ => GGrow) (c80_shelves 1) c104_jobs) as [io' HJ]; [exact H1|rewrite HLN; reflexivity|exact H2|vm_compute; discriminate|vm_compute; discriminate|exact H3|exact HT|].
  exists io'. split; [exact HJ|]. split; [exact HT|]. split; [reflexivity|]. split; [reflexivity|]. split; [|split].
  - destruct (c104_length Debug DbPlain (c80_io 1) (c80_open 1) (fun _ => GGrow) (c80_shelves 1) c104_jobs io') as [_ HX]; [exact H1|rewrite HLN; reflexivity|exact H2|vm_compute; discriminate|exact H3|exact HT|exact HJ|].
    rewrite HX, HLN; [reflexivity|vm_compute; discriminate|]. intros i [<-|[<-|[<-|[]]]]; vm_compute; discriminate.
  - destruct (H3 2 (mk_shelf (PT KGenre) 9 158 0 []) eq_refl) as (p & HG & HLK). intros x X1 X2.
    apply (c104_looked Debug DbPlain (c80_io 1) (c80_open 1) (fun _ => GGrow) (c80_shelves 1) c104_jobs io' 2 p x); [exact H1|rewrite HLN; reflexivity|exact H2|vm_compute; discriminate|exact H3|exact HT|exact HJ|exact HG| |intros [E|[]]; discriminate|exact X1|exact X2|rewrite HLN; exact X2].
    destruct HG as (_ & _ & _ & _ & HG & _). destruct (HG eq_refl) as (h & c & -> & _). exact I.
  - pose proof (c104_header Debug DbPlain (c80_io 1) (c80_open 1) (fun _ => GGrow) (c80_shelves 1) c104_jobs io') as HH. cbv zeta in HH. specialize (HH H1 ltac:(rewrite HLN; reflexivity) H2 ltac:(vm_compute; discriminate) H3 HT HJ ltac:(discriminate)).
    intro E. apply has_get in HH as [HH1 HH2]. specialize (HH2 40 ltac:(vm_compute; reflexivity)). change (0 + 40) with 40 in HH2.
    assert (getN (takeN 396 io') 40 = getN io' 40) as E1 by (now rewrite getN_takeN). rewrite E in E1. rewrite HH2 in E1. vm_compute in E1. discriminate.
Qed.
