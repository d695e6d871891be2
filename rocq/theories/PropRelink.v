(** * Property C80: programs that change links, page types and tables *)
From Coq Require Import NArith ZArith List Bool Lia.
From Coq Require Import ZifyBool ZifyNat ZifyN.
From Verif Require Import Base BaseFacts Segs Str StrFacts StrGood Schema SchemaFacts Oa OaFacts OaSpec Rows RowFacts RowSpec Page BitFacts PageFacts PageRw PageSpec Alloc AllocFacts AllocSpec
  Db DbFacts DbFlush DbFresh Reread Progress Insert Session Revise Relink PropAlloc PropSession PropRevise Cut PropCut.
Import ListNotations.
Open Scope N_scope.

(** Programs as in C78 may also assign the link and the type of pages and change the header, as long as the size and the number of pages stay, and only empty pages get another type.
    The file that the last program leaves has the last header and all rows, and the row iterator shows the rows of the pages in the new order. *)
Theorem c80_jobs : forall b k io d G A ls io',
  bytes_ok io -> len io < 2 ^ 64 - 1 -> db_open io k = DOk d -> 28 + 16 * len (dh_tables (db_header d)) <= dh_page_size (db_header d) ->
  (forall i s, A i = Some s -> exists p, good_page b d (G i) i p /\ like s p) -> tasks_ok b k G (db_header d, A) (concat ls) ->
  jobs b k io ls io' ->
  let h' := fst (tasks_work (db_header d, A) (concat ls)) in let A' := snd (tasks_work (db_header d, A) (concat ls)) in
  exists d', db_open io' k = DOk d' /\ db_header d' = h' /\ stores b d' G A' /\
    forall r i t q, find_table (PT r) h' = Some (i, t) -> path A' (tb_last t) (tb_first t) q -> forallb (is_variant r) (flat_map (shelf_rows A') q) = true ->
      exists rows, snd (iter_rows b r d') = Some (DOk rows) /\ Forall2 same_values (flat_map (shelf_rows A') q) rows.
Proof.
  intros b k io d G A ls io' HB HL HO HP HA HW HS h' A'. pose proof (open_stores b io k d G A HB HL HO HP HA) as HST.
  destruct (jobs_stores b k io ls io' HS d G (db_header d, A) HO HST eq_refl HW) as (d' & D1 & D2 & D3). exists d'. split; [exact D1|]. split; [exact D2|]. split; [exact D3|].
  intros r i t q HT HPA HV. fold h' in D2. rewrite <- D2 in HT. now apply (stores_rows b d' G A' r i t q D3 HT).
Qed.
Print Assumptions c80_jobs.
Theorem c80_run : forall b k io d G A ls,
  bytes_ok io -> len io < 2 ^ 64 - 1 -> db_open io k = DOk d -> 28 + 16 * len (dh_tables (db_header d)) <= dh_page_size (db_header d) -> dh_page_size (db_header d) <= 4096 ->
  (forall i s, A i = Some s -> exists p, good_page b d (G i) i p /\ like s p) -> tasks_ok b k G (db_header d, A) (concat ls) -> exists io', jobs b k io ls io'.
Proof. intros b k io d G A ls HB HL HO HP H4 HA HW. apply (jobs_run b k G ls io d (db_header d, A)); try easy. now apply (open_stores b io k). Qed.
Print Assumptions c80_run.

(** ** Extending a table by a page *)
Lemma path_le A last : forall n l, path A last n l -> Forall (fun x => x <= last) l /\ n <= last.
Proof.
  intros n l H. induction H as [s E|n s l NE E HI HP [IH1 IH2]]; [split; [constructor; [lia|constructor]|lia]|]. split; [|lia]. constructor; [lia|easy].
Qed.
(** If the last page of a table is linked to a page behind it, the table has the rows of both. *)
Theorem c80_link : forall A last first l s m sm n t, path A last first l -> A last = Some s -> A m = Some sm -> last < m ->
  let A' := put (put A last (relabelled m (sh_type s) s)) m (relabelled n t sm) in
  path A' m first (l ++ [m]) /\ flat_map (shelf_rows A') (l ++ [m]) = flat_map (shelf_rows A) l ++ sh_rows sm /\ forall i, i <> last -> i <> m -> A' i = A i.
Proof.
  intros A last first l s m sm n t HP EA EM HM A'. assert (forall i, i <> last -> i <> m -> A' i = A i) as HE. { intros i H1 H2. unfold A', put. replace (i =? m) with false by lia. now replace (i =? last) with false by lia. }
  assert (A' last = Some (relabelled m (sh_type s) s)) as EL by (unfold A', put; replace (last =? m) with false by lia; now rewrite N.eqb_refl).
  assert (A' m = Some (relabelled n t sm)) as EM' by (unfold A', put; now rewrite N.eqb_refl). split; [|split; [|exact HE]].
  - induction HP as [s0 E|i s0 l NE E HI HP IH].
    + cbn [app]. apply (path_step _ _ last (relabelled m (sh_type s) s)); [lia|exact EL|cbn; lia|]. cbn [relabelled sh_next]. now apply (path_last _ _ (relabelled n t sm)).
    + cbn [app]. apply path_le in HP as HX. destruct HX as [_ HX]. apply (path_step _ _ i s0); [lia| |easy|easy]. rewrite HE; [easy|easy|lia].
  - rewrite flat_map_app. cbn [flat_map]. unfold shelf_rows at 2. rewrite EM', app_nil_r. cbn [relabelled sh_rows]. f_equal. apply path_le in HP as [HX _]. clear - HX HE EL EA HM. induction HX as [|x l HX _ IH]; [easy|]. cbn [flat_map]. rewrite IH. f_equal. unfold shelf_rows.
    destruct (x =? last) eqn:E; [|rewrite HE; [easy|lia|lia]]. assert (x = last) as -> by lia. rewrite EL, EA. easy.
Qed.
Print Assumptions c80_link.
Lemma find_set_last t m : forall l i j x, find_from i t l = Some (j, x) -> find_from i t (set_last_in t m l) = Some (j, mk_table (tb_type x) (tb_empty x) (tb_first x) m).
Proof. induction l as [|y l IH]; intros i j x H; [easy|]. cbn [find_from set_last_in] in *. destruct (ptype_eqb (tb_type y) t) eqn:E; cbn [find_from tb_type]; rewrite E; [injection H as <- <-; reflexivity|now apply IH]. Qed.
Lemma len_set_last t m : forall l, len (set_last_in t m l) = len l.
Proof. induction l as [|y l IH]; [easy|]. cbn [set_last_in]. destruct (ptype_eqb (tb_type y) t); rewrite !len_cons; [easy|now rewrite IH]. Qed.
Lemma set_last_ok k t m : forall l, is_u32 m -> Forall (table_ok k) l -> Forall (table_ok k) (set_last_in t m l).
Proof.
  induction l as [|y l IH]; intros HM H; [easy|]. inversion H as [|? ? (H1 & H2 & H3 & H4) H5]; subst. cbn [set_last_in]. destruct (ptype_eqb (tb_type y) t); constructor; try easy. now apply IH.
Qed.
Lemma find_type t : forall l i j x, find_from i t l = Some (j, x) -> tb_type x = t /\ In x l.
Proof.
  induction l as [|y l IH]; intros i j x H; [easy|]. cbn [find_from] in H. destruct (ptype_eqb (tb_type y) t) eqn:E; [injection H as <- <-; split; [now apply ptype_eqb_eq|now left]|]. apply IH in H as [H1 H2]. split; [easy|now right].
Qed.
(** A whole program: the last page of table [r] is linked to the free page [m], which becomes a page of the table and its last page; then rows are inserted there.
    Afterwards the table has its old rows, and the new ones behind them. *)
Theorem c80_extended : forall b k io d G A r i t q s m sm n ops P,
  bytes_ok io -> len io < 2 ^ 64 - 1 -> db_open io k = DOk d -> 28 + 16 * len (dh_tables (db_header d)) <= dh_page_size (db_header d) -> dh_page_size (db_header d) <= 4096 ->
  (forall i s, A i = Some s -> exists p, good_page b d (G i) i p /\ like s p) ->
  find_table (PT r) (db_header d) = Some (i, t) -> path A (tb_last t) (tb_first t) q -> forallb (is_variant r) (flat_map (shelf_rows A) q) = true ->
  A (tb_last t) = Some s -> sh_type s = PT r -> G (tb_last t) <> GAny -> tb_last t < m -> m < 2 ^ 32 -> A m = Some sm -> sh_rows sm = [] -> G m = GGrow -> n < 2 ^ 32 ->
  Forall (op_fine b (PT r)) ops -> Forall (fun op => match snd op with Some x => is_variant r x = true | None => True end) ops ->
  let l := [TLabel (tb_last t) m (PT r); TLabel m n (PT r); THeader (set_last (PT r) m); TActs P [AInsert m ops]] in
  (exists io', job b k io l io') /\
  forall io', job b k io l io' -> exists d' rows, db_open io' k = DOk d' /\ snd (iter_rows b r d') = Some (DOk rows) /\
    Forall2 same_values (flat_map (shelf_rows A) q ++ sh_rows (places ops (relabelled n (PT r) sm))) rows.
Proof.
  intros b k io d G A r i t q s m sm n ops P HB HL HO HP H4 HA HT HPA HV ES ETS EG HM HM32 EM ERS EGM HN HOP HOV l. pose proof (open_stores b io k d G A HB HL HO HP HA) as HST. pose proof (open_kind io k d HO) as HK.
  assert (dbhdr_ok k (db_header d)) as HHO by (destruct HST as ((_ & X & _) & _); now rewrite HK in X). pose proof HHO as (O1 & O2 & O3 & O4 & O5 & O6 & O7).
  destruct (find_type _ _ _ _ _ HT) as [TT TI]. assert (ptype_ok k (PT r)) as HPT. { rewrite Forall_forall in O7. destruct (O7 t TI) as [X _]. now rewrite TT in X. }
  destruct (c80_link A (tb_last t) (tb_first t) q s m sm n (PT r) HPA ES EM HM) as (L1 & L2 & L3). rewrite ETS in L1, L2, L3. set (A1 := put A (tb_last t) (relabelled m (PT r) s)) in *. set (A2 := put A1 m (relabelled n (PT r) sm)) in *.
  assert (A1 m = Some sm) as EM1 by (unfold A1, put; replace (m =? tb_last t) with false by lia; exact EM). assert (A2 m = Some (relabelled n (PT r) sm)) as EM2 by (unfold A2, put; now rewrite N.eqb_refl).
  assert (tasks_work (db_header d, A) l = (set_last (PT r) m (db_header d), work1 A2 (m, ops))) as EW.
  { unfold l, tasks_work. cbn [fold_left task_work fst snd acts_work act_work]. rewrite ES. fold A1. rewrite EM1. fold A2. reflexivity. }
  assert (tasks_ok b k G (db_header d, A) l) as HW.
  { unfold l. cbn [tasks_ok task_ok task_work fst snd]. rewrite ES. fold A1. rewrite EM1. fold A2. split; [|split; [|split; [|split; [|exact I]]]].
    - exists s. repeat (split; [easy|]). now left.
    - exists sm. split; [reflexivity|]. split; [congruence|]. split; [easy|]. split; [easy|]. now right.
    - cbv zeta. unfold set_last, dbhdr_ok. cbn [dh_page_size dh_num dh_next dh_unknown dh_seq dh_tables]. rewrite len_set_last. split; [|easy]. repeat (split; [easy|]). now apply set_last_ok.
    - cbn [acts_ok act_ok]. split; [|exact I]. exists (relabelled n (PT r) sm). cbn [fst snd]. split; [exact EM2|]. right. now split. }
  split.
  - destruct (tasks_run b G l d (db_header d, A) HST eq_refl H4) as [d1 HE]; [now rewrite HK|]. assert (tasks_ok b (db_kind d) G (db_header d, A) l) as HW' by now rewrite HK. destruct (tasks_stores b d l d1 HE G (db_header d, A) HST eq_refl HW') as (S1 & _).
    destruct (stores_flush b d1 G _ S1) as [d2 HF]. exists (db_io d2), d, d1, d2. now repeat (split; [easy|]).
  - intros io' HJ. destruct (job_stores b k io l io' d G (db_header d, A) HO HST eq_refl HW HJ) as (d' & D1 & D2 & D3). rewrite EW in D2, D3. cbn [fst snd] in D2, D3. exists d'.
    assert (forall x, work1 A2 (m, ops) x = if x =? m then Some (places ops (relabelled n (PT r) sm)) else A2 x) as HW1. { intro x. unfold work1. cbn [fst snd]. destruct (x =? m) eqn:E; [|easy]. assert (x = m) as -> by lia. now rewrite EM2. }
    assert (path (work1 A2 (m, ops)) m (tb_first t) (q ++ [m])) as HPW.
    { clear - L1 HW1 EM2. induction L1 as [s0 E|x s0 l NE E HI HP IH]; [apply (path_last _ _ (places ops (relabelled n (PT r) sm))); now rewrite HW1, N.eqb_refl|].
      apply (path_step _ _ x s0); try easy. rewrite HW1. now replace (x =? m) with false by lia. }
    apply path_le in HPA as HX. destruct HX as [HX _].
    assert (flat_map (shelf_rows (work1 A2 (m, ops))) (q ++ [m]) = flat_map (shelf_rows A) q ++ sh_rows (places ops (relabelled n (PT r) sm))) as ER.
    { rewrite flat_map_app. cbn [flat_map]. unfold shelf_rows at 2. rewrite HW1, N.eqb_refl, app_nil_r. f_equal. rewrite flat_map_app in L2. cbn [flat_map] in L2. rewrite app_nil_r in L2. unfold shelf_rows at 2 in L2. rewrite EM2 in L2. cbn [relabelled sh_rows] in L2. apply app_inv_tail in L2.
      rewrite <- L2. clear - HX HM HW1. induction HX as [|x l HX _ IH]; [easy|]. cbn [flat_map]. rewrite IH. f_equal. unfold shelf_rows. rewrite HW1. now replace (x =? m) with false by lia. }
    destruct (stores_rows b d' G (work1 A2 (m, ops)) r i (mk_table (tb_type t) (tb_empty t) (tb_first t) m) (q ++ [m]) D3) as (rows & R1 & R2).
    + rewrite D2. now apply find_set_last.
    + exact HPW.
    + rewrite ER, forallb_app, HV. cbn [andb]. assert (forall ops sh, Forall (fun op => match snd op with Some x => is_variant r x = true | None => True end) ops -> forallb (is_variant r) (sh_rows sh) = true -> forallb (is_variant r) (sh_rows (places ops sh)) = true) as HF.
      { clear. induction ops as [|op ops IH]; intros sh H HS; [easy|]. inversion H as [|? ? H1 H2]; subst. change (places (op :: ops) sh) with (places ops (place sh op)). apply IH; [easy|]. unfold place. destruct (sh_free sh <? (fst op + 3) / 4 * 4 + 6); [easy|]. cbn [sh_rows].
        rewrite forallb_app, HS. cbn [andb]. destruct (snd op) as [x|]; [|easy]. cbn [forallb]. now rewrite H1. }
      apply HF; [easy|]. cbn [relabelled sh_rows]. now rewrite ERS.
    + exists rows. rewrite ER in R2. now split.
Qed.
Print Assumptions c80_extended.

(** ** Example: page 1 has the keys, page 2 is an empty page of another table; it is added to the keys and gets a row. *)
Definition c80_free : page := mk_page (mk_phdr 2 (PT KGenre) 9 1 0 (mk_counts 0 0) 0x24 158 0) (PData (mk_dcontent [VInt 1; VInt 0; VInt 0; VInt 0] [] [])).
Definition c80_hdr (first : N) : dbhdr := mk_dbhdr 198 2 3 0 7 [mk_table (PT KGenre) 9 7 7; mk_table (PT KKey) 9 first first].
Definition c80_io (first : N) : list N :=
  match flush Debug (mk_db (repeat 0 594) DbPlain (c80_hdr first) (if first =? 1 then [Some c75_page; Some c80_free] else [Some c80_free; Some c75_page])) with DOk d => db_io d | _ => [] end.
Definition c80_open (first : N) : database := mk_db (c80_io first) DbPlain (c80_hdr first) [None; None].
Definition c80_shelves (first : N) : shelves := fun i =>
  if i =? first then Some (mk_shelf (PT KKey) 6 112 3 (map snd c18_rows)) else if i =? 3 - first then Some (mk_shelf (PT KGenre) 9 158 0 []) else None.
Lemma c80_free_ok : alloc_ok Debug dstr_good DbPlain 198 (mk_phdr 2 (PT KGenre) 9 1 0 (mk_counts 0 0) 0x24 158 0) (mk_dcontent [VInt 1; VInt 0; VInt 0; VInt 0] [] []).
Proof.
  unfold alloc_ok. split; [|split; [easy|split; [reflexivity|split; [|split]]]].
  - unfold dpage_ok. split; [easy|]. split; [easy|]. split; [repeat split; cbn; auto 20|]. split; [reflexivity|]. split; [repeat constructor|]. split; [reflexivity|]. split; [constructor|]. split; [constructor|]. split; [reflexivity|]. split; [reflexivity|]. constructor.
  - intros s H. exfalso. unfold slot_flag in H. now rewrite (proj2 (getN_None _ _)) in H by (cbn; lia).
  - cbn [tidy dc_rows ph_used]. lia.
  - easy.
Qed.
Example c80_example_hyp : forall first, first = 1 \/ first = 2 -> bytes_ok (c80_io first) /\ db_open (c80_io first) DbPlain = DOk (c80_open first) /\
  (forall i s, c80_shelves first i = Some s -> exists p, good_page Debug (c80_open first) GGrow i p /\ like s p) /\ path (c80_shelves first) first first [first] /\
  Forall (op_fine Debug (PT KKey)) [(11, Some c18_new)].
Proof.
  intros first HF. assert (can_grow Debug DbPlain 198 c75_page) as HG by (exists c18_header, c18_content; split; [easy|exact c19_example_ok]).
  assert (can_grow Debug DbPlain 198 c80_free) as HG2 by (eexists _, _; split; [reflexivity|exact c80_free_ok]).
  assert (forall r, In r (c18_new :: map snd c18_rows) -> row_writes Debug r) as HW by (intros r [<-|[<-|[<-|[]]]]; eexists; vm_compute; reflexivity).
  split; [destruct HF as [->| ->]; apply c79_bytes; vm_compute; reflexivity|]. split; [destruct HF as [->| ->]; vm_compute; reflexivity|]. split; [|split].
  - intros i s H. unfold c80_shelves in H. destruct (i =? first) eqn:E.
    + assert (i = first) as -> by lia. injection H as <-. exists c75_page. split.
      * unfold good_page. cbn [c80_open db_header db_kind dh_page_size dh_next c80_hdr db_io]. split; [lia|]. split; [lia|]. split; [now apply grow_consistent|]. split.
        { unfold page_writes. cbn [c75_page pg_content c18_content dc_rows]. apply Forall_forall. intros x Hx. apply HW. right. now apply in_map. }
        split; [easy|]. destruct HF as [->| ->]; eexists; vm_compute; reflexivity.
      * split; [reflexivity|]. split; [reflexivity|]. split; [reflexivity|]. split; [reflexivity|]. cbn. repeat constructor.
    + destruct (i =? 3 - first) eqn:E2; [|easy]. assert (i = 3 - first) as -> by lia. injection H as <-. exists c80_free. split.
      * unfold good_page. cbn [c80_open db_header db_kind dh_page_size dh_next c80_hdr db_io]. split; [lia|]. split; [lia|]. split; [now apply grow_consistent|]. split; [constructor|].
        split; [easy|]. destruct HF as [->| ->]; eexists; vm_compute; reflexivity.
      * split; [reflexivity|]. split; [reflexivity|]. split; [reflexivity|]. split; [reflexivity|]. constructor.
  - apply (path_last _ first (mk_shelf (PT KKey) 6 112 3 (map snd c18_rows))). unfold c80_shelves. now rewrite N.eqb_refl.
  - pose proof c19_example_ops as HO. unfold c19_ops in HO. inversion HO as [|? ? O1 _]; subst. constructor; [|constructor]. split; [exact O1|]. cbn [snd]. apply HW. now left.
Qed.
Definition c80_tasks (last m : N) : list task := [TLabel last m (PT KKey); TLabel m 9 (PT KKey); THeader (set_last (PT KKey) m); TActs c78_tables [AInsert m [(11, Some c18_new)]]].
Definition c80_done (last m : N) : list N :=
  let label d j n := let '(d1, r) := load_page Debug d j in match r with DOk p => set_page d1 j (relabel n (PT KKey) p) | _ => d1 end in
  let d := label (label (c80_open last) last m) m 9 in
  let d2 := with_header d (set_last (PT KKey) m (db_header d)) in
  let '(d3, r) := load_page Debug d2 m in
  match r with DOk p => match run Debug [(11, Some c18_new)] p with Ok p' => match flush Debug (set_page d3 m p') with DOk d4 => db_io d4 | _ => [] end | _ => [] end | _ => [] end.
Lemma c80_job last m : (last = 1 /\ m = 2) \/ (last = 2 /\ m = 1) -> job Debug DbPlain (c80_io last) (c80_tasks last m) (c80_done last m).
Proof.
  intros [[-> ->]|[-> ->]]; (eexists _, _, _; split; [apply c80_example_hyp; auto|]; split; [|split]).
  1, 4: unfold c80_tasks; eapply tasks_cons; [eapply performs_label; vm_compute; reflexivity|]; eapply tasks_cons; [eapply performs_label; vm_compute; reflexivity|]; eapply tasks_cons; [apply performs_header|];
    eapply tasks_cons; [apply performs_acts; eapply acts_cons; [eapply does_insert; vm_compute; reflexivity|apply acts_nil]|apply tasks_nil].
  all: vm_compute; reflexivity.
Qed.
Example c80_example : exists d', db_open (c80_done 1 2) DbPlain = DOk d' /\ snd (iter_rows Debug KKey d') = Some (DOk (map snd c18_rows ++ [c18_new])).
Proof. eexists. split; [vm_compute; reflexivity|]. vm_compute. reflexivity. Qed.
(** The hypotheses of [c80_extended] hold. *)
Example c80_example_extended : exists io' d' rows, job Debug DbPlain (c80_io 1) (c80_tasks 1 2) io' /\ db_open io' DbPlain = DOk d' /\ snd (iter_rows Debug KKey d') = Some (DOk rows) /\
  Forall2 same_values (map snd c18_rows ++ [c18_new]) rows.
Proof.
  destruct (c80_example_hyp 1 (or_introl eq_refl)) as (H1 & H2 & H3 & H4 & H5).
  destruct (c80_extended Debug DbPlain (c80_io 1) (c80_open 1) (fun _ => GGrow) (c80_shelves 1) KKey 1 (mk_table (PT KKey) 9 1 1) [1] (mk_shelf (PT KKey) 6 112 3 (map snd c18_rows)) 2 (mk_shelf (PT KGenre) 9 158 0 []) 9 [(11, Some c18_new)] c78_tables)
    as [(io' & HJ) HA];
    [exact H1|vm_compute; reflexivity|exact H2|vm_compute; discriminate|vm_compute; discriminate|exact H3|reflexivity|exact H4|reflexivity|reflexivity|reflexivity|discriminate|reflexivity|reflexivity|reflexivity|reflexivity|reflexivity|reflexivity|exact H5|repeat constructor|].
  destruct (HA io' HJ) as (d' & rows & D1 & D2 & D3). exists io', d', rows. repeat (split; [assumption|]). exact D3.
Qed.
(** The new page must be behind the last one: the iterator refuses links to pages in front, although nothing in the format asks for an order.  The same program with a
    free page in front runs without an error; then no row of the table can be read with the row iterator. *)
Theorem c80_order_refuted : exists io io' d d', db_open io DbPlain = DOk d /\ snd (iter_rows Debug KKey d) = Some (DOk (map snd c18_rows)) /\
  job Debug DbPlain io (c80_tasks 2 1) io' /\ db_open io' DbPlain = DOk d' /\ snd (iter_rows Debug KKey d') = Some (DErr (DPageOrder 1)) /\
  (exists p, snd (load_page Debug d' 2) = DOk p /\ rows_of_page p = map snd c18_rows /\ ph_next (pg_header p) = 1) /\ (exists p, snd (load_page Debug d' 1) = DOk p /\ rows_of_page p = [c18_new]).
Proof.
  exists (c80_io 2), (c80_done 2 1), (c80_open 2). eexists. split; [apply c80_example_hyp; auto|]. split; [vm_compute; reflexivity|]. split; [apply c80_job; now right|]. split; [vm_compute; reflexivity|]. split; [vm_compute; reflexivity|].
  split; eexists; (split; [vm_compute; reflexivity|]); [split|]; reflexivity.
Qed.
Print Assumptions c80_order_refuted.
