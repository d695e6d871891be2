(** * Property C109: appending pages to a database *)
From Coq Require Import NArith ZArith List Bool Lia.
From Coq Require Import ZifyBool ZifyNat ZifyN.
From Verif Require Import Base BaseFacts Segs Str StrFacts StrGood Schema SchemaFacts Oa OaFacts OaSpec Rows RowFacts RowSpec Page BitFacts PageFacts PageRw PageSpec Alloc AllocFacts AllocSpec
  Db DbFacts DbFlush DbFresh Reread Progress Insert Session Revise Relink PropAlloc PropSession PropRevise Cut PropCut PropRelink CutLink Append.
Import ListNotations.
Open Scope N_scope.

(** Pages can be written behind the last one and counted in the header with a save.  Afterwards they can be loaded, all tables have the rows that they had, and the bytes of the other
    pages are the same. *)
Theorem c109_append : forall b k io d G A l S io2,
  bytes_ok io -> len io < 2 ^ 64 - 1 -> db_open io k = DOk d -> 28 + 16 * len (dh_tables (db_header d)) <= dh_page_size (db_header d) ->
  (forall i s, A i = Some s -> exists p, good_page b d (G i) i p /\ like s p) ->
  let n := dh_next (db_header d) in let ps := dh_page_size (db_header d) in
  1 <= n -> n + len l < 2 ^ 32 -> Forall (fun p => page_consistent b k ps p /\ page_writes b ps p) l -> (forall i p, getN l i = Some p -> graded b k ps (G (n + i)) p) -> Forall2 like S l ->
  appended b k io l io2 ->
  (exists d', db_open io2 k = DOk d' /\ db_header d' = with_next (n + len l) (db_header d) /\ stores b d' G (adjoin A n S)) /\
  (forall r i t q, find_table (PT r) (db_header d) = Some (i, t) -> path A (tb_last t) (tb_first t) q -> forallb (is_variant r) (flat_map (shelf_rows A) q) = true -> shown b k r io2 (flat_map (shelf_rows A) q)) /\
  (forall x, ps <= x -> x < n * ps -> x < len io -> getN io2 x = getN io x).
Proof.
  intros b k io d G A l S io2 HB HL HO HP HA n ps H1 H32 HC HG HF HX. pose proof (open_stores b io k d G A HB HL HO HP HA) as HST. destruct (appended_stores b k io d G A l S io2 HO HST H1 H32 HC HG HF HX) as (d' & O1 & O2 & O3).
  split; [now exists d'|]. split; [|intros x X1 X2 X3; now apply (appended_bytes b k io d G A l)]. intros r i t q HT HPA HV.
  assert (forall x, In x q -> adjoin A n S x = A x) as HE.
  { intros x Hx. assert (exists s, A x = Some s) as [s E]. { clear - HPA Hx. induction HPA as [s E|m s l NE E HI HP IH]; destruct Hx as [<-|Hx]; try easy; [now exists s|now exists s|now apply IH]. }
    destruct (HA x s E) as (p & (_ & X & _) & _). unfold adjoin, n. now replace (x <? dh_next (db_header d)) with true by lia. }
  destruct (stores_rows b d' G (adjoin A n S) r i t q O3) as (rows & R1 & R2).
  - rewrite O2. exact HT.
  - now apply (path_eq A).
  - now rewrite (rows_eq A).
  - rewrite (rows_eq A) in R2 by easy. exists d', rows. now repeat split.
Qed.
Print Assumptions c109_append.
(** It can always be done. *)
Theorem c109_run : forall b k io d G A l,
  bytes_ok io -> len io < 2 ^ 64 - 1 -> db_open io k = DOk d -> 28 + 16 * len (dh_tables (db_header d)) <= dh_page_size (db_header d) ->
  (forall i s, A i = Some s -> exists p, good_page b d (G i) i p /\ like s p) -> 1 <= dh_next (db_header d) ->
  Forall (fun p => page_consistent b k (dh_page_size (db_header d)) p /\ page_writes b (dh_page_size (db_header d)) p) l -> exists io2, appended b k io l io2.
Proof. intros b k io d G A l HB HL HO HP HA H1 HC. apply (appended_runs b k io d G A); try easy. now apply (open_stores b io k). Qed.
Print Assumptions c109_run.
(** Programs as in C80 can use the new pages like the others: they can link them to tables and insert rows into them. *)
Theorem c109_jobs : forall b k io d G A l S io2 ls io3,
  bytes_ok io -> len io < 2 ^ 64 - 1 -> db_open io k = DOk d -> 28 + 16 * len (dh_tables (db_header d)) <= dh_page_size (db_header d) ->
  (forall i s, A i = Some s -> exists p, good_page b d (G i) i p /\ like s p) ->
  let n := dh_next (db_header d) in let ps := dh_page_size (db_header d) in
  1 <= n -> n + len l < 2 ^ 32 -> Forall (fun p => page_consistent b k ps p /\ page_writes b ps p) l -> (forall i p, getN l i = Some p -> graded b k ps (G (n + i)) p) -> Forall2 like S l ->
  let st := (with_next (n + len l) (db_header d), adjoin A n S) in
  tasks_ok b k G st (concat ls) -> appended b k io l io2 -> jobs b k io2 ls io3 ->
  let h' := fst (tasks_work st (concat ls)) in let A' := snd (tasks_work st (concat ls)) in
  exists d', db_open io3 k = DOk d' /\ db_header d' = h' /\ stores b d' G A' /\
    forall r i t q, find_table (PT r) h' = Some (i, t) -> path A' (tb_last t) (tb_first t) q -> forallb (is_variant r) (flat_map (shelf_rows A') q) = true -> shown b k r io3 (flat_map (shelf_rows A') q).
Proof.
  intros b k io d G A l S io2 ls io3 HB HL HO HP HA n ps H1 H32 HC HG HF st HW HX HJ h' A'. pose proof (open_stores b io k d G A HB HL HO HP HA) as HST. destruct (appended_stores b k io d G A l S io2 HO HST H1 H32 HC HG HF HX) as (d2 & O1 & O2 & O3).
  destruct (jobs_stores b k io2 ls io3 HJ d2 G st O1 O3 O2 HW) as (d' & D1 & D2 & D3). exists d'. split; [exact D1|]. split; [exact D2|]. split; [exact D3|].
  intros r i t q HT HPA HV. fold h' in D2. rewrite <- D2 in HT. destruct (stores_rows b d' G A' r i t q D3 HT HPA HV) as (rows & R1 & R2). exists d', rows. now repeat split.
Qed.
Print Assumptions c109_jobs.

(** ** Example: an empty page is appended to the file of C80 *)
Definition c109_page : page := mk_page (mk_phdr 3 (PT KGenre) 9 1 0 (mk_counts 0 0) 0x24 158 0) (PData (mk_dcontent [VInt 1; VInt 0; VInt 0; VInt 0] [] [])).
Lemma c109_page_ok : alloc_ok Debug dstr_good DbPlain 198 (mk_phdr 3 (PT KGenre) 9 1 0 (mk_counts 0 0) 0x24 158 0) (mk_dcontent [VInt 1; VInt 0; VInt 0; VInt 0] [] []).
Proof.
  unfold alloc_ok. split; [|split; [easy|split; [reflexivity|split; [|split]]]].
  - unfold dpage_ok. split; [easy|]. split; [easy|]. split; [repeat split; cbn; auto 20|]. split; [reflexivity|]. split; [repeat constructor|]. split; [reflexivity|]. split; [constructor|]. split; [constructor|]. split; [reflexivity|]. split; [reflexivity|]. constructor.
  - intros s H. exfalso. unfold slot_flag in H. now rewrite (proj2 (getN_None _ _)) in H by (cbn; lia).
  - cbn [tidy dc_rows ph_used]. lia.
  - easy.
Qed.
Definition c109_io : list N :=
  match page_write Debug 198 c109_page (c80_io 1, 594) with
  | Ok (io1, _) => match db_open io1 DbPlain with DOk d => match flush Debug (with_header d (with_next 4 (db_header d))) with DOk d2 => db_io d2 | _ => [] end | _ => [] end
  | _ => [] end.
Definition c109_shelf : shelf := mk_shelf (PT KGenre) 9 158 0 [].
Example c109_example_hyp :
  Forall (fun p => page_consistent Debug DbPlain 198 p /\ page_writes Debug 198 p) [c109_page] /\ (forall i p, getN [c109_page] i = Some p -> graded Debug DbPlain 198 GGrow p) /\ Forall2 like [c109_shelf] [c109_page] /\
  appended Debug DbPlain (c80_io 1) [c109_page] c109_io /\ tasks_ok Debug DbPlain (fun _ => GGrow) (with_next 4 (c80_hdr 1), adjoin (c80_shelves 1) 3 [c109_shelf]) (c80_tasks 1 3) /\
  (exists d', db_open c109_io DbPlain = DOk d' /\ db_header d' = with_next 4 (c80_hdr 1) /\ stores Debug d' (fun _ => GGrow) (adjoin (c80_shelves 1) 3 [c109_shelf])) /\ shown Debug DbPlain KKey c109_io (map snd c18_rows).
Proof.
  assert (can_grow Debug DbPlain 198 c109_page) as HG by (eexists _, _; split; [reflexivity|exact c109_page_ok]). destruct (c80_example_hyp 1 (or_introl eq_refl)) as (H1 & H2 & H3 & H4 & H5).
  assert (Forall (fun p => page_consistent Debug DbPlain 198 p /\ page_writes Debug 198 p) [c109_page]) as HC by (constructor; [split; [now apply grow_consistent|constructor]|constructor]).
  assert (forall i p, getN [c109_page] i = Some p -> graded Debug DbPlain 198 GGrow p) as HGR. { intros i p E. assert (In p [c109_page]) as [<-|[]] by (apply in_getN; now exists i). split; [exact HG|constructor]. }
  assert (Forall2 like [c109_shelf] [c109_page]) as HL by (constructor; [|constructor]; split; [reflexivity|]; split; [reflexivity|]; split; [reflexivity|]; split; [reflexivity|]; constructor).
  assert (appended Debug DbPlain (c80_io 1) [c109_page] c109_io) as HA. { exists (c80_open 1). eexists _, _, _, _. split; [exact H2|]. split; [vm_compute; reflexivity|]. split; [vm_compute; reflexivity|]. split; [vm_compute; reflexivity|]. vm_compute. reflexivity. }
  split; [exact HC|]. split; [exact HGR|]. split; [exact HL|]. split; [exact HA|]. split.
  - assert (ptype_ok DbPlain (PT KKey)) as HK by (cbn; auto 20). assert (ptype_ok DbPlain (PT KGenre)) as HK2 by (cbn; auto 20). unfold c80_tasks. cbn [tasks_ok task_ok task_work fst snd]. split; [|split; [|split; [|split; [|exact I]]]].
    + exists (mk_shelf (PT KKey) 6 112 3 (map snd c18_rows)). split; [reflexivity|]. split; [discriminate|]. split; [reflexivity|]. split; [exact HK|]. now left.
    + exists c109_shelf. split; [vm_compute; reflexivity|]. split; [discriminate|]. split; [reflexivity|]. split; [exact HK|]. now right.
    + cbv zeta. split; [|split; [reflexivity|split; [reflexivity|vm_compute; discriminate]]]. unfold dbhdr_ok. do 6 (split; [reflexivity|]). constructor; [split; [exact HK2|repeat split]|]. constructor; [split; [exact HK|repeat split]|constructor].
    + cbn [acts_ok act_ok]. split; [|exact I]. eexists. cbn [fst snd]. split; [vm_compute; reflexivity|]. right. split; [reflexivity|]. exact H5.
  - destruct (c109_append Debug DbPlain (c80_io 1) (c80_open 1) (fun _ => GGrow) (c80_shelves 1) [c109_page] [c109_shelf] c109_io H1) as (X1 & X2 & _);
      [vm_compute; reflexivity|exact H2|vm_compute; discriminate|exact H3|vm_compute; discriminate|vm_compute; reflexivity|exact HC|exact HGR|exact HL|exact HA|].
    split; [exact X1|]. apply (X2 KKey 1 (mk_table (PT KKey) 9 1 1) [1]); [reflexivity|exact H4|reflexivity].
Qed.
(** The program of C80 with the new page. *)
Definition c109_done : list N :=
  let label d j n := let '(d1, r) := load_page Debug d j in match r with DOk p => set_page d1 j (relabel n (PT KKey) p) | _ => d1 end in
  match db_open c109_io DbPlain with
  | DOk d0 => let d := label (label d0 1 3) 3 9 in let d2 := with_header d (set_last (PT KKey) 3 (db_header d)) in let '(d3, r) := load_page Debug d2 3 in
    match r with DOk p => match run Debug [(11, Some c18_new)] p with Ok p' => match flush Debug (set_page d3 3 p') with DOk d4 => db_io d4 | _ => [] end | _ => [] end | _ => [] end
  | _ => [] end.
Example c109_example : jobs Debug DbPlain c109_io [c80_tasks 1 3] c109_done /\ exists d', db_open c109_done DbPlain = DOk d' /\ snd (iter_rows Debug KKey d') = Some (DOk (map snd c18_rows ++ [c18_new])).
Proof.
  split; [|eexists; split; [vm_compute; reflexivity|]; vm_compute; reflexivity]. eapply jobs_cons; [|apply jobs_nil]. eexists _, _, _. split; [vm_compute; reflexivity|]. split; [|split].
  - unfold c80_tasks. eapply tasks_cons; [eapply performs_label; vm_compute; reflexivity|]; eapply tasks_cons; [eapply performs_label; vm_compute; reflexivity|]; eapply tasks_cons; [apply performs_header|];
    eapply tasks_cons; [apply performs_acts; eapply acts_cons; [eapply does_insert; vm_compute; reflexivity|apply acts_nil]|apply tasks_nil].
  - vm_compute. reflexivity.
  - vm_compute. reflexivity.
Qed.
(** Counting the page in the header is not enough: neither before nor after saving can a page be loaded that is not in the file, and saving does not make it. *)
Theorem c109_header_refuted : exists io d d2 d3, db_open io DbPlain = DOk d /\
  let d1 := with_header d (with_next 4 (db_header d)) in (forall p, snd (load_page Debug d1 3) <> DOk p) /\
  flush Debug d1 = DOk d2 /\ len (db_io d2) = len io /\ db_open (db_io d2) DbPlain = DOk d3 /\ (forall p, snd (load_page Debug d3 3) <> DOk p).
Proof.
  exists (c80_io 1), (c80_open 1). eexists _, _. split; [apply c80_example_hyp; auto|]. cbv zeta. split; [intro p; vm_compute; discriminate|]. split; [vm_compute; reflexivity|]. split; [vm_compute; reflexivity|]. split; [vm_compute; reflexivity|]. intro p. vm_compute. discriminate.
Qed.
Print Assumptions c109_header_refuted.
